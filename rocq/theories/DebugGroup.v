(** Model of the debug build (NDEBUG not defined, HEAVY_DEBUG not defined) of include/separate/group_chaining.hpp with
    dummy_overflow: the release functions of GroupModel with the DCHECK/DDCHECK checks and the ON_DEBUG members.
    A failing check is [Throw], as in DebugModel.  The counters compared by the checks do not wrap: group sizes are
    below 2^32 and widths at most 64. *)
From Verif Require Export GroupModel DebugModel.
#[local] Open Scope nat_scope.

(** ** core_group (20-356) *)
(** m_data with m_key_width, m_length, m_blocksize, which no constructor sets, and m_plain_data (28-32). *)
Record dcore := DCore { c_d : core; c_kw : option N; c_len : option N; c_bs : option N; c_plain : option (list N) }.
Definition dc_new : dcore := DCore None None None None None.
(** 37-49 clear: m_key_width keeps its value *)
Definition dc_clear (d : dcore) : dcore := DCore None (c_kw d) (Some 0%N) (Some 0%N) None.
(** 89-102 initialize *)
Definition dc_init (d : dcore) (w : nat) : res dcore :=
  _ ← chk (match c_plain d with None => true | _ => false end);
  _ ← chk (match c_d d with None => true | _ => false end);
  Ok (DCore (cg_init w) (Some (N.of_nat w)) (Some 0%N) (Some (N.of_nat (cdiv w 64))) (Some [0%N])).
(** DDCHECK_EQ(m_key_width, key_width) *)
Definition dc_width (d : dcore) (w : nat) : res unit := kw ← known (c_kw d); chk (kw =? N.of_nat w)%N.
(** m_plain_data[i] *)
Definition dc_plain (d : dcore) (i : nat) : res N :=
  match c_plain d with None => Ub NullDeref | Some P => of_option OobRead (P !! i) end.

Section core.
Context (pf : platform).
(** 250-264 read_, read *)
Definition dc_read (d : dcore) (i w : nat) : res N :=
  _ ← dc_width d w;
  l ← known (c_len d);
  _ ← chk (N.of_nat i <? l)%N;
  _ ← chk (i * w / 64 + i * w mod 64 <? 64 * cdiv (N.to_nat l * w) 64);
  r ← cg_read pf (c_d d) i w;
  p ← dc_plain d i;
  _ ← chk (p =? r)%N;
  Ok r.
(** 156-158, 243-245: DDCHECK_EQ(m_plain_data[i], read(i, key_width)) for the i below n *)
Definition dc_check (d : dcore) (n w : nat) : res unit :=
  rfold (fun _ i => p ← dc_plain d i; r ← dc_read d i w; chk (p =? r)%N) (seq 0 n) tt.

(** 104-160 erase(index, key_width, length) with length > 0: cells of m_plain_data behind index move down; with one element
    nothing is reallocated *)
Definition dc_erase (d : dcore) (i w n : nat) : res dcore :=
  _ ← dc_width d w;
  P ← (match c_plain d with None => Throw | Some P => Ok P end);
  l ← known (c_len d);
  _ ← chk (N.of_nat n =? l)%N;
  x ← cg_erase pf (c_d d) i w n;
  P ← (if (length P <? n) then Ub OobRead
       else Ok (if 0 <? n - 1 then take (n - 1) (take i P ++ drop (S i) (take n P)) else P));
  let d := DCore x (c_kw d) (Some (N.of_nat (n - 1))) (c_bs d) (Some P) in
  _ ← dc_check d (n - 1) w;
  Ok d.

(** 163-247 insert(index, key, key_width, length).  The checks 200, 205, 212, 216, 235, 238 compare positions: every move
    stays within m_blocksize words; they are evaluated before the moves.  The final loop (243-245) does not reach the
    last element. *)
Definition dc_insert (d : dcore) (i : nat) (x : N) (w n : nat) : res dcore :=
  _ ← dc_width d w;
  P ← (match c_plain d with None => Throw | Some P => Ok P end);
  l ← known (c_len d);
  _ ← chk (N.of_nat n =? l)%N;
  P ← (if (n <? i) || (length P <? n) then Ub OobWrite else Ok (take i P ++ x :: take (n - i) (drop i P)));
  let bs := cdiv (w * (n + 2)) 64 in
  let total := (n - i) * w in
  _ ← chk (if 0 <? total / 64 then (n * w <=? (n + 1) * w) && (n * w + w <=? (n + 1) * w) else true);
  _ ← chk (forallb (fun j => 64 * (j + 1) <=? n * w) (seq 0 (total / 64)));
  _ ← chk (forallb (fun m : nat * nat * nat => snd (fst m) + snd m <=? 64 * bs) (insert_moves i w n));
  _ ← chk (i * w + w <=? 64 * bs);
  y ← cg_insert pf (c_d d) i x w n;
  let d := DCore y (c_kw d) (Some (N.of_nat (n + 1))) (Some (N.of_nat bs)) (Some P) in
  _ ← dc_check d n w;
  Ok d.

(** 267-292 write_, write *)
Definition dc_write (d : dcore) (i : nat) (x : N) (w : nat) : res dcore :=
  _ ← dc_width d w;
  _ ← chk (most_significant_bit x <=? Z.of_nat w)%Z;
  l ← known (c_len d);
  _ ← chk (N.of_nat i <? l)%N;
  p ← dc_plain d i;
  r ← dc_read d i w;
  _ ← chk (p =? r)%N;
  _ ← chk (i * w / 64 + i * w mod 64 <? 64 * cdiv (N.to_nat l * w) 64);
  y ← cg_write pf (c_d d) i x w;
  let d := DCore y (c_kw d) (c_len d) (c_bs d) ((fun P => <[i := x]> P) <$> c_plain d) in
  r ← dc_read d i w;
  _ ← chk (x =? r)%N;
  _ ← rfold (fun _ j => _ ← dc_read d j w; Ok tt) (seq 0 (N.to_nat l)) tt;
  Ok d.

(** 315-324: the loop of find; None is -1ULL *)
Fixpoint dc_scan (d : dcore) (i n w : nat) (x : N) : res (option nat) :=
  match n with
  | O => Ok None
  | S n' =>
      bs ← known (c_bs d);
      _ ← chk (N.of_nat (i * w + w) <=? 64 * bs)%N;
      y ← cg_get pf (c_d d) (i * w) w;
      p ← dc_plain d i;
      _ ← chk (y =? p)%N;
      if (y =? x)%N then Ok (Some i) else dc_scan d (S i) n' w x
  end.
(** 296-302 find_debug *)
Fixpoint dc_find_plain (d : dcore) (i n : nat) (x : N) : res bool :=
  match n with
  | O => Ok false
  | S n' => p ← dc_plain d i; if (p =? x)%N then Ok true else dc_find_plain d (S i) n' x
  end.
(** 309-327 find: n elements from position i on *)
Definition dc_find (d : dcore) (i n w : nat) (x : N) : res (option nat) :=
  _ ← dc_width d w;
  _ ← chk (0 <? n);
  l ← known (c_len d);
  _ ← chk (N.of_nat (i + n) <=? l)%N;
  r ← dc_scan d i n w x;
  match (r : option nat) with
  | Some p => Ok (Some p)
  | None => f ← dc_find_plain d i n x; _ ← chk (negb f); Ok None
  end.
End core.

(** ** keyvalue_group (362-701) *)
(** The members 374-381: m_border_length, which no constructor sets, m_border_array and m_groupsize are debug members. *)
Record dkv := DKv { k_size : N; k_keys : dcore; k_vals : dcore; k_border : option (list N);
  k_blen : option N; k_barr : list N; k_gs : N }.
Definition kstrip (g : dkv) : kvgroup := KvGroup (k_size g) (c_d (k_keys g)) (c_d (k_vals g)) (k_border g).
(** 435 the default constructor; 453-460 clear: m_border_length and m_groupsize keep their values *)
Definition dkv_new : dkv := DKv 0 dc_new dc_new None None [] 0.
Definition dkv_clear (g : dkv) : dkv := DKv 0 (dc_clear (k_keys g)) (dc_clear (k_vals g)) None (k_blen g) [] (k_gs g).

(** The sum over m_border[0], ..., m_border[m_border_length-1] of popcounts, compared with the number of ones *)
Definition border_count (border : option (list N)) (blen : N) (expect : nat) : res unit :=
  ws ← of_option NullDeref border;
  _ ← (if (N.of_nat (length ws) <? blen)%N then Ub OobRead else Ok tt);
  chk (fold_right (fun w s => popcount w + s) 0 (take (N.to_nat blen) ws) =? expect).

(** 504-515 find_group_position: [border_select] with the check 509 *)
Fixpoint dborder_select (blen idx : N) (ws : list N) (rem sum : nat) : res nat :=
  _ ← chk (idx <? blen)%N;
  match ws with
  | [] => Ub OobRead
  | w :: ws' =>
      if popcount w <=? rem then dborder_select blen (idx + 1) ws' (rem - popcount w) (sum + 64)
      else p ← select64_swar w (N.of_nat (rem + 1)); Ok (sum + N.to_nat p)
  end.
Definition dkv_position (g : dkv) (i : nat) : res nat :=
  blen ← known (k_blen g);
  _ ← chk (0 <? blen)%N;
  ws ← of_option NullDeref (k_border g);
  p ← dborder_select blen 0 ws (i mod 256) 0;
  a ← of_option OobRead (k_barr g !! (i mod 256));
  _ ← chk (N.of_nat p =? a + N.of_nat (i mod 256))%N;
  Ok p.
(** 442-449 bucketsize *)
Definition dkv_bucketsize (g : dkv) (i : nat) : res nat :=
  if (k_size g =? 0)%N then Ok 0
  else
    prev ← (match i with O => Ok 0 | S i' => p ← dkv_position g i'; Ok (p - i') end);
    e ← dkv_position g i;
    _ ← chk (i + prev <=? e);
    a ← of_option OobRead (k_barr g !! i);
    a' ← (match i with O => Ok 0%N | S i' => of_option OobRead (k_barr g !! i') end);
    _ ← chk (N.of_nat (e - i - prev) =? sub64 a a')%N;
    Ok (e - i - prev).
Definition dkv_begin (g : dkv) (i : nat) : res nat :=
  match i with O => Ok 0 | S i' => p ← dkv_position g i'; Ok (p + 1) end.
(** DDCHECK_LT(groupindex, m_groupsize) *)
Definition dkv_index (g : dkv) (i : nat) : res unit := chk (N.of_nat i <? k_gs g)%N.

Section kv.
Context (pf : platform).
(** 463-488 initialize *)
Definition dkv_init (g : dkv) (groupsize kw vw : nat) : res dkv :=
  _ ← chk (match k_border g with None => true | _ => false end);
  ks ← dc_init (k_keys g) kw;
  vs ← dc_init (k_vals g) vw;
  _ ← chk (groupsize <=? 255);
  let blen := N.of_nat (cdiv (groupsize + 1) 64) in
  let g := DKv 0 ks vs (Some (border_init groupsize)) (Some blen)
             (take groupsize (k_barr g) ++ replicate (groupsize - length (k_barr g)) 0%N) (N.of_nat groupsize) in
  _ ← border_count (k_border g) blen (groupsize + 1);
  Ok g.
(** 637-651 read_key, read_value, write_value *)
Definition dkv_read_key (g : dkv) (i pos kw : nat) : res N :=
  _ ← dkv_index g i; b ← dkv_begin g i; dc_read pf (k_keys g) (b + pos - i) kw.
Definition dkv_read_value (g : dkv) (i pos vw : nat) : res N :=
  _ ← dkv_index g i; b ← dkv_begin g i; dc_read pf (k_vals g) (b + pos - i) vw.
Definition dkv_write_value (g : dkv) (i pos : nat) (v : N) (vw : nat) : res dkv :=
  _ ← dkv_index g i;
  b ← dkv_begin g i;
  vs ← dc_write pf (k_vals g) (b + pos - i) v vw;
  Ok (DKv (k_size g) (k_keys g) vs (k_border g) (k_blen g) (k_barr g) (k_gs g)).
(** 653-661 read *)
Definition dkv_read (g : dkv) (i pos kw vw : nat) : res (N * N) :=
  _ ← dkv_index g i;
  b ← dkv_begin g i;
  e ← dkv_position g i;
  _ ← chk (pos <? e - b);
  k ← dc_read pf (k_keys g) (b + pos - i) kw;
  v ← dc_read pf (k_vals g) (b + pos - i) vw;
  Ok (k, v).
(** 666-674 find; None is -1ULL *)
Definition dkv_find (g : dkv) (i : nat) (k : N) (kw : nat) : res (option nat) :=
  _ ← dkv_index g i;
  b ← dkv_begin g i;
  e ← dkv_position g i;
  _ ← chk (b <=? e);
  if e =? b then Ok None
  else
    r ← dc_find pf (k_keys g) (b - i) (e - i - (b - i)) kw k;
    Ok ((fun x => x - (b - i)) <$> (r : option nat)).

(** 551-562, 621-634: m_border_array agrees with m_border, and the number of ones is right *)
Definition dkv_check (g : dkv) (expect : nat) : res unit :=
  _ ← rfold (fun _ i => p ← dkv_position g i; a ← of_option OobRead (k_barr g !! i); chk (a =? N.of_nat (p - i))%N)
        (seq 0 (length (k_barr g))) tt;
  blen ← known (k_blen g);
  border_count (k_border g) blen expect.
(** 517-563 push_back *)
Definition dkv_push (g : dkv) (bpg i : nat) (k : N) (kw : nat) (v : N) (vw : nat) : res dkv :=
  _ ← chk (k_size g <? 2^32 - 1)%N;
  ge ← dkv_position g i;
  ks ← dc_insert pf (k_keys g) (ge - i) k kw (N.to_nat (k_size g));
  vs ← dc_insert pf (k_vals g) (ge - i) v vw (N.to_nat (k_size g));
  let size := u32 (k_size g + 1) in
  ws ← of_option NullDeref (k_border g);
  blen ← known (k_blen g);
  let new := kv_border_words size bpg in
  let grow := cdiv (N.to_nat (u32 (size + N.of_nat bpg))) 64 <? new in
  let ws := if grow then take (new - 1) ws ++ [0%N] else ws in
  let blen := if grow then (blen + 1)%N else blen in
  _ ← chk (N.of_nat new =? blen)%N;
  ws ← border_insert ws ge new;
  let g := DKv size ks vs (Some ws) (Some blen) (take i (k_barr g) ++ map (fun a => a + 1)%N (drop i (k_barr g))) (k_gs g) in
  _ ← dkv_check g (bpg + 1);
  Ok g.
(** 584-585, 595-596: the bit at ge is set, the one before is not *)
Definition border_bits (ws : list N) (ge : nat) : res unit :=
  cur ← of_option OobRead (ws !! (ge / 64));
  if ge mod 64 =? 0 then
    match ge / 64 with
    | O => Ub OobRead
    | S g' => prev ← of_option OobRead (ws !! g'); _ ← chk (negb (N.testbit prev 63)); chk (N.testbit cur 0)
    end
  else _ ← chk (N.testbit cur (N.of_nat (ge mod 64))); chk (negb (N.testbit cur (N.of_nat (ge mod 64 - 1)))).
(** 565-635 erase *)
Definition dkv_erase (g : dkv) (bpg i pos kw vw : nat) : res dkv :=
  b ← (match i with O => Ok 0 | S i' => dkv_position g i' end);
  let prev := match i with O => 0 | S i' => i' end in
  ge ← dkv_position g i;
  _ ← chk (b + pos <? ge);
  ks ← dc_erase pf (k_keys g) (b - prev + pos) kw (N.to_nat (k_size g));
  vs ← dc_erase pf (k_vals g) (b - prev + pos) vw (N.to_nat (k_size g));
  ws ← of_option NullDeref (k_border g);
  blen ← known (k_blen g);
  let old := kv_border_words (k_size g) bpg in
  _ ← chk (N.of_nat old =? blen)%N;
  _ ← chk (ge / 64 <? old);
  _ ← border_bits ws ge;
  ws ← border_delete ws ge old;
  let size := u32 (k_size g + 2^32 - 1) in
  let new := kv_border_words size bpg in
  let ws := if new <? old then take new ws else ws in
  let blen := if new <? old then sub64 blen 1 else blen in
  _ ← chk (N.of_nat new =? blen)%N;
  let g := DKv size ks vs (Some ws) (Some blen) (take i (k_barr g) ++ map (fun a => sub64 a 1) (drop i (k_barr g))) (k_gs g) in
  _ ← dkv_check g (N.to_nat (k_gs g) + 1);
  Ok g.
End kv.
#[local] Close Scope nat_scope.

(** ** group_chaining_table (710-1512) *)
(** One entry of m_plainkeys, m_plainvalues and m_bucketsizes (742-744), three arrays allocated and freed together. *)
Record dplain := DPlain { p_keys : option (list N); p_vals : option (list N); p_size : N }.
Definition p_none : dplain := DPlain None None 0.
Record dgtable := DGTable { dg_groups : option (list dkv); dg_b : N; dg_n : N; dg_kw : N; dg_vw : N; dg_bpg : N;
  dg_plain : option (list dplain) }.
Definition gstrip (t : dgtable) : gtable :=
  GTable ((fun gs => map kstrip gs) <$> dg_groups t) (dg_b t) (dg_n t) (dg_kw t) (dg_vw t) (dg_bpg t).

Section table.
Context (pf : platform) (c : gcfg).
Notation hm t := (ghm c (dg_kw t)).
Notation qw t := (gqw c (gstrip t)).
Notation vw t := (gvw (gstrip t)).
Notation bpg t := (gbpg (gstrip t)).
Notation rank t bk := (g_rank (gstrip t) bk).
Notation count t := (g_bucket_count (gstrip t)).

(** 941-953 constructor; the hash function checks its width *)
Definition dg_new (kw vw : N) : res dgtable :=
  _ ← dhash_new (gc_hash c) (u8 kw);
  _ ← chk (1 <=? u8 vw); _ ← chk (u8 vw <=? 64); _ ← chk (1 <=? u8 kw); _ ← chk (u8 kw <=? 64);
  Ok (DGTable None 0 0 (u8 kw) (u8 vw) 3 None).

Definition dg_at (t : dgtable) (gi : N) : res dkv :=
  match dg_groups t with
  | None => Ub NullDeref
  | Some gs => if gi <? N.of_nat (length gs) then of_option OobRead (gs !! N.to_nat gi) else Ub OobRead
  end.
Definition dg_group (t : dgtable) (bk : N) : res dkv := gi ← g_div (gstrip t) bk; dg_at t gi.
Definition dg_set (t : dgtable) (bk : N) (g : dkv) : dgtable :=
  DGTable ((fun gs => <[N.to_nat (bk / dg_bpg t) := g]> gs) <$> dg_groups t) (dg_b t) (dg_n t) (dg_kw t) (dg_vw t) (dg_bpg t) (dg_plain t).
Definition dg_set_n (t : dgtable) (n : N) : dgtable :=
  DGTable (dg_groups t) (dg_b t) n (dg_kw t) (dg_vw t) (dg_bpg t) (dg_plain t).
(** The entry of bucket bk in the three arrays, and writing it *)
Definition dg_pl (t : dgtable) (bk : N) : res dplain :=
  match dg_plain t with
  | None => Ub NullDeref
  | Some ps => if bk <? N.of_nat (length ps) then of_option OobRead (ps !! N.to_nat bk) else Ub OobRead
  end.
Definition dg_set_pl (t : dgtable) (bk : N) (p : dplain) : dgtable :=
  DGTable (dg_groups t) (dg_b t) (dg_n t) (dg_kw t) (dg_vw t) (dg_bpg t) ((fun ps => <[N.to_nat bk := p]> ps) <$> dg_plain t).
(** A cell of a bucket in m_plainkeys or m_plainvalues *)
Definition pcell (l : option (list N)) (i : nat) : res N := match l with None => Ub NullDeref | Some l => of_option OobRead (l !! i) end.
(** remainder_width(m_buckets) with DDCHECK_GT(quotient_width, 0) and DDCHECK_LE(quotient_width, key_width()) *)
Definition dg_width (t : dgtable) : res unit :=
  w ← dremainder_width (hm t) (dg_b t); _ ← chk (0 <? w); chk (w <=? dg_kw t).

(** 933-935 bucket_size, 863-876 quotient_at, value_at, for the iterators: with the checks of iterator.hpp that guard
    their use, 46-49 and the ones of inv_map for quotient_at, 60 for value_at, 90 and 111 for bucket_size (118-120 check
    what the loop before has established). *)
Definition dg_bucket_size (t : dgtable) (bk : N) : res N :=
  _ ← chk (bk <? count t);
  g ← dg_group t bk; n ← dkv_bucketsize g (rank t bk); Ok (N.of_nat n).
Definition dg_valid (t : dgtable) (bk pos : N) : res unit := n ← dg_bucket_size t bk; chk (pos <? n).
Definition dg_quotient_at (t : dgtable) (bk pos qw : N) : res N :=
  _ ← dg_valid t bk pos;
  _ ← dg_width t;
  _ ← chk (bk <? count t);
  g ← dg_group t bk;
  q ← dkv_read_key pf g (rank t bk) (N.to_nat pos) (N.to_nat qw);
  _ ← dhash_inv_map (hm t) (q mod 2^64) bk (dg_b t);
  Ok q.
Definition dg_value_at (t : dgtable) (bk pos : N) : res N :=
  _ ← dg_valid t bk pos;
  if bk =? count t then Ub OobRead
  else _ ← chk (bk <? count t); g ← dg_group t bk; dkv_read_value pf g (rank t bk) (N.to_nat pos) (vw t).
Definition dg_view (t : dgtable) : view :=
  View (count t) (dg_bucket_size t) (dg_quotient_at t) (dg_value_at t) (hm t) (dg_b t) 64.
(** 877-887 write_value *)
Definition dg_write_value (t : dgtable) (x : nav) (v : N) : res dgtable :=
  let '(bk, pos) := x in
  if bk =? count t then Ub OobWrite
  else
    _ ← chk (bk <? count t);
    _ ← chk (v <=? g_max_value (gstrip t));
    p ← dg_pl t bk;
    _ ← pcell (p_vals p) (N.to_nat pos);
    let t := dg_set_pl t bk (DPlain (p_keys p) ((fun l => <[N.to_nat pos := v]> l) <$> p_vals p) (p_size p)) in
    g ← dg_group t bk;
    g ← dkv_write_value pf g (rank t bk) (N.to_nat pos) v (vw t);
    Ok (dg_set t bk g).

(** 778-791 clear_bucket, 793-808 clear(group_i) *)
Definition dg_clear_bucket (t : dgtable) (bk : N) : res dgtable :=
  _ ← chk (bk <? count t); _ ← dg_pl t bk; Ok (dg_set_pl t bk p_none).
Definition dg_clear_group (t : dgtable) (gi : N) : res dgtable :=
  g ← dg_at t gi;
  _ ← chk (k_gs g =? dg_bpg t);
  t ← rfold (fun t r =>
        let bk := gi * dg_bpg t + N.of_nat r in
        if count t <=? bk then Ok t
        else i ← g_div (gstrip t) bk; _ ← chk (i =? gi); dg_clear_bucket t bk) (seq 0 (N.to_nat (k_gs g))) t;
  Ok (dg_set t (gi * dg_bpg t) (dkv_clear g)).
(** 814-827 clear_structure, 832-839 clear *)
Definition dg_clear_structure (t : dgtable) : dgtable := DGTable None 0 0 (dg_kw t) (dg_vw t) (dg_bpg t) None.
Definition dg_clear (t : dgtable) : res dgtable :=
  n ← g_group_count (gstrip t);
  t ← rfold (fun t gi => g ← dg_at t (N.of_nat gi); if (k_size g =? 0) then Ok t else dg_clear_group t (N.of_nat gi)) (seq 0 (N.to_nat n)) t;
  Ok (dg_clear_structure t).

(** 1128-1145: the loop over the plain data up to the quotient *)
Fixpoint dg_scan (t : dgtable) (bk : N) (g : dkv) (p : dplain) (q : N) (i n : nat) : res (option N) :=
  match n with
  | O => Ok None
  | S n' =>
      qi ← dkv_read_key pf g (rank t bk) i (qw t);
      k ← dhash_inv_map (hm t) qi bk (dg_b t);
      pv ← pcell (p_vals p) i;
      v ← dkv_read_value pf g (rank t bk) i (vw t);
      _ ← chk (pv =? v);
      pk ← pcell (p_keys p) i;
      _ ← chk (k =? pk);
      if qi =? q then Ok (Some (N.of_nat i)) else dg_scan t bk g p q (S i) n'
  end.
(** 1123-1158 locate(bucket, quotient); None is -1ULL *)
Definition dg_locate_q (t : dgtable) (bk q : N) : res (option N) :=
  _ ← dg_width t;
  _ ← chk (most_significant_bit q <=? Z.of_nat (qw t))%Z;
  g ← dg_group t bk;
  n ← dkv_bucketsize g (rank t bk);
  p ← dg_pl t bk;
  pp ← dg_scan t bk g p q 0 n;
  pos ← (if k_size g =? 0 then Ok None
         else r ← dkv_find pf g (rank t bk) q (qw t); Ok (N.of_nat <$> (r : option nat)));
  _ ← chk (match (pos : option N), (pp : option N) with Some a, Some b => a =? b | None, None => true | _, _ => false end);
  _ ← chk (match (pos : option N) with Some a => a <? N.of_nat n | None => true end);
  Ok pos.
(** map(key) with DDCHECK_EQ(m_hash.inv_map(quotient, bucket, m_buckets), key) *)
Definition dg_map (t : dgtable) (k : N) : res (N * N) :=
  qb ← dhash_map (hm t) k (dg_b t);
  x ← dhash_inv_map (hm t) (fst qb) (snd qb) (dg_b t);
  _ ← chk (x =? k);
  Ok qb.

(** 958-976 reserve, first branch (m_buckets == 0) *)
Definition dg_alloc (t : dgtable) (n : N) : res dgtable :=
  bits ← reserve_bits n;
  q ← g_div (gstrip t) (2^bits);
  Ok (DGTable (Some (replicate (N.to_nat (q + 1)) dkv_new)) bits (dg_n t) (dg_kw t) (dg_vw t) (dg_bpg t)
        (Some (replicate (N.to_nat (2^bits)) p_none))).
(** 1000-1016: one bucket of the rehashing loop *)
Definition dg_rehash_bucket (ins : dgtable -> N -> N -> res (dgtable * nav)) (t : dgtable) (gi : nat) (g : dkv)
    (tmp : dgtable) (r : nat) : res dgtable :=
  n ← dkv_bucketsize g r;
  if (n =? 0)%nat then Ok tmp
  else
    let bk := N.of_nat (r + gi * bpg t) in
    _ ← chk (rank t bk =? r)%nat;
    _ ← chk (bk <? count t);
    i ← g_div (gstrip t) bk;
    _ ← chk (i =? N.of_nat gi);
    p ← dg_pl t bk;
    _ ← chk (N.of_nat n =? p_size p);
    rfold (fun tmp j =>
        kv ← dkv_read pf g r j (qw t) (vw t);
        k ← dhash_inv_map (hm t) (fst kv) bk (dg_b t);
        pv ← pcell (p_vals p) j;
        _ ← chk (snd kv =? pv);
        pk ← pcell (p_keys p) j;
        _ ← chk (k =? pk);
        x ← ins tmp k (snd kv);
        Ok (fst x)) (seq 0 n) tmp.
(** 995-1018: one group.  clear(group_i) (1017) touches only this group, the checks of the following ones are the same. *)
Definition dg_rehash_group (ins : dgtable -> N -> N -> res (dgtable * nav)) (t : dgtable) (tmp : dgtable) (ig : nat * dkv) : res dgtable :=
  let '(gi, g) := ig in
  if k_size g =? 0 then Ok tmp
  else
    _ ← chk (k_gs g =? dg_bpg t);
    tmp ← rfold (dg_rehash_bucket ins t gi g) (seq 0 (bpg t)) tmp;
    _ ← dg_clear_group t (N.of_nat gi);
    Ok tmp.
(** 994-1020: the number of elements seen *)
Definition dg_elements (t : dgtable) (gs : list dkv) : res N :=
  rfold (fun s g => if k_size g =? 0 then Ok s else rfold (fun s r => n ← dkv_bucketsize g r; Ok (s + N.of_nat n)) (seq 0 (bpg t)) s) gs 0.
(** 958-1035 reserve(n, new_key_width).  The elements are counted before they are moved. *)
Definition dg_reserve_with (ins : dgtable -> N -> N -> res (dgtable * nav)) (t : dgtable) (n nkw : N) : res dgtable :=
  let nkw := if nkw =? 0 then dg_kw t else nkw in
  if dg_b t =? 0 then dg_alloc t n
  else
    bits ← reserve_bits n;
    _ ← dg_new nkw (dg_vw t);
    tmp ← dg_alloc (DGTable None 0 0 (u8 nkw) (dg_vw t) 64 None) (2^bits);
    gc ← g_group_count (gstrip t);
    _ ← dg_width t;
    match dg_groups t with
    | None => Ub NullDeref
    | Some gs =>
        if N.of_nat (length gs) <? gc then Ub OobRead
        else
          m ← dg_elements t (take (N.to_nat gc) gs);
          _ ← chk (u64 m =? dg_n t);
          tmp ← rfold (dg_rehash_group ins t) (imap pair (take (N.to_nat gc) gs)) tmp;
          _ ← chk (dg_n t =? dg_n tmp);
          Ok tmp
    end.

(** 1230-1275: a new element at the end of bucket bk *)
Definition dg_push (t : dgtable) (bk q k v : N) (g : dkv) (n : nat) : res dgtable :=
  let t := dg_set_n t (u64 (dg_n t + 1)) in
  _ ← dg_width t;
  g ← (match k_border g with Some _ => Ok g | None => dkv_init g (bpg t) (qw t) (vw t) end);
  p ← dg_pl t bk;
  _ ← chk (p_size p =? N.of_nat n);
  p ← (if p_size p =? 0 then
         _ ← chk (match p_keys p with None => true | _ => false end);
         _ ← chk (match p_vals p with None => true | _ => false end);
         Ok (DPlain (Some [k]) (Some [v]) 1)
       else
         match p_keys p, p_vals p with
         | Some ks, Some vs =>
             if (length ks <? n)%nat || (length vs <? n)%nat then Ub OobRead
             else Ok (DPlain (Some (take n ks ++ [k])) (Some (take n vs ++ [v])) (u32 (p_size p + 1)))
         | _, _ => Ub NullDeref
         end);
  _ ← chk (k <=? g_max_key (gstrip t));
  _ ← chk (n * qw t / 64 + n * qw t mod 64 <? 64 * cdiv ((n + 1) * qw t) 64)%nat;
  _ ← chk (qw t <=? 64)%nat;
  g ← dkv_push pf g (bpg t) (rank t bk) q (qw t) v (vw t);
  m ← dkv_bucketsize g (rank t bk);
  _ ← chk (p_size p =? N.of_nat m);
  x ← dkv_read_key pf g (rank t bk) n (qw t);
  y ← dhash_inv_map (hm t) x bk (dg_b t);
  _ ← chk (y =? k);
  pv ← pcell (p_vals p) n;
  y ← dkv_read_value pf g (rank t bk) n (vw t);
  _ ← chk (pv =? y);
  Ok (dg_set_pl (dg_set t bk g) bk p).
(** 1185-1277 find_or_insert *)
Fixpoint dg_find_or_insert (fuel : nat) (t : dgtable) (k v : N) : res (dgtable * nav) :=
  match fuel with
  | O => Timeout
  | S f =>
      _ ← chk (1 <? dg_kw t);
      t ← (if dg_b t =? 0 then dg_alloc t (N.min (sub64 (dg_kw t) 1) 8) else Ok t);
      qb ← dg_map t k;
      let '(q, bk) := (qb : N * N) in
      g ← dg_group t bk;
      n ← dkv_bucketsize g (rank t bk);
      pos ← dg_locate_q t bk q;
      match (pos : option N) with
      | Some p => _ ← chk (p <? N.of_nat n); Ok (t, (bk, p))
      | None =>
          if k_size g =? g_max_group then
            n ← shl64 1 (dg_b t + 1);
            t ← dg_reserve_with (dg_find_or_insert f) t n 0;
            dg_find_or_insert f t k v
          else t ← dg_push t bk q k v g n; Ok (t, (bk, N.of_nat n))
      end
  end.
Definition dg_reserve (fuel : nat) (t : dgtable) (n nkw : N) : res dgtable := dg_reserve_with (dg_find_or_insert fuel) t n nkw.

(** 1105-1120 find *)
Definition dg_find (t : dgtable) (k : N) : res nav :=
  if dg_b t =? 0 then Ok end_nav
  else
    qb ← dg_map t k;
    let '(q, bk) := (qb : N * N) in
    pos ← dg_locate_q t bk q;
    match (pos : option N) with Some p => Ok (bk, p) | None => Ok end_nav end.
(** 1167-1182 locate(key) *)
Definition dg_locate (t : dgtable) (k : N) : res (N * option N) :=
  _ ← chk (0 <? dg_b t);
  if dg_b t =? 0 then Throw
  else
    qb ← dg_map t k;
    let '(q, bk) := (qb : N * N) in
    pos ← dg_locate_q t bk q; Ok (bk, pos).

(** 1341-1346: the plain data of bucket bk agrees with the group *)
Definition dg_agree (t : dgtable) (bk : N) (g : dkv) (p : dplain) (i : nat) : res unit :=
  x ← dkv_read_key pf g (rank t bk) i (qw t);
  k ← dhash_inv_map (hm t) x bk (dg_b t);
  pk ← pcell (p_keys p) i;
  _ ← chk (k =? pk);
  pv ← pcell (p_vals p) i;
  v ← dkv_read_value pf g (rank t bk) i (vw t);
  chk (pv =? v).
(** 1304-1364 erase(bucket, position) *)
Definition dg_erase_at (t : dgtable) (x : nav) : res (dgtable * N) :=
  let '(bk, pos) := x in
  if pos =? ones64 then Ok (t, 0)
  else
    _ ← chk (bk <? count t);
    p ← dg_pl t bk;
    _ ← chk (pos <? p_size p);
    g ← dg_group t bk;
    _ ← dg_width t;
    let n := N.to_nat (p_size p) in
    let i := N.to_nat pos in
    _ ← dg_agree t bk g p i;
    p ← (match p_keys p, p_vals p with
         | Some ks, Some vs =>
             if (length ks <? n)%nat || (length vs <? n)%nat then Ub OobRead
             else Ok (DPlain (Some (delete i (take n ks))) (Some (delete i (take n vs))) (p_size p - 1))
         | _, _ => Ub NullDeref
         end);
    g ← dkv_erase pf g (bpg t) (rank t bk) i (qw t) (vw t);
    m ← dkv_bucketsize g (rank t bk);
    _ ← chk (p_size p =? N.of_nat m);
    _ ← rfold (fun _ j => dg_agree t bk g p j) (seq 0 (N.to_nat (p_size p))) tt;
    let t := dg_set_pl (dg_set (dg_set_n t (sub64 (dg_n t) 1)) bk g) bk p in
    t ← (if k_size g =? 0 then gi ← g_div (gstrip t) bk; dg_clear_group t gi else Ok t);
    p ← dg_pl t bk;
    t ← (if p_size p =? 0 then dg_clear_bucket t bk else Ok t);
    Ok (t, 1).
(** 1289-1294 erase(key) *)
Definition dg_erase (t : dgtable) (k : N) : res (dgtable * N) :=
  if dg_b t =? 0 then Ok (t, 0)
  else
    l ← dg_locate t k;
    let '(bk, pos) := (l : N * option N) in
    dg_erase_at t (bk, match pos with Some p => p | None => ones64 end).

Definition dg_impl (fuel : nat) : mapimpl dgtable :=
  Impl dg_view dg_find (dg_find_or_insert fuel) dg_write_value dg_erase dg_erase_at dg_n
    (fun t n => dg_reserve fuel t n 0) dg_clear.

(** 1084-1091, 1081-1096 begin: bucketsize() runs with its checks *)
Fixpoint dg_first_bucket (g : dkv) (n r : nat) : res (option nat) :=
  match n with
  | O => Ok None
  | S n' => m ← dkv_bucketsize g r; if (0 <? m)%nat then Ok (Some r) else dg_first_bucket g n' (S r)
  end.
Fixpoint dg_begin_scan (t : dgtable) (gs : list dkv) (gi : nat) : res nav :=
  match gs with
  | [] => Ok end_nav
  | g :: gs' =>
      r ← (if k_size g =? 0 then Ok None else dg_first_bucket g (bpg t) 0);
      match (r : option nat) with
      | Some r => Ok (N.of_nat (gi * bpg t + r), 0)
      | None => dg_begin_scan t gs' (S gi)
      end
  end.
Definition dg_begin (t : dgtable) : res nav :=
  gc ← g_group_count (gstrip t);
  let gs := default [] (dg_groups t) in
  if N.of_nat (length gs) <? gc then Ub OobRead else dg_begin_scan t (take (N.to_nat gc) gs) 0.
Definition dg_forward (fuel : nat) (t : dgtable) : res (list (N * N)) :=
  x ← dg_begin t; v_iterate (dg_view t) fuel x.
End table.
