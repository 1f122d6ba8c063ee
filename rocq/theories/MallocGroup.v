(** Model of group_chaining_table (dummy overflow, release build) on a heap where malloc and realloc can fail (answers as in MallocModel.v).
    The results are used at once: memset after 100 and 471, a write to the last word after 178 and 526.  Only erase (613) stores the pointer
    without using it.  The array of groups comes from new[], which never fails here. *)
From Verif Require Export MallocModel GroupModel.

(** A request whose result is written to at once; [b]: is it made at all. *)
Definition req (b : bool) (h : answers) : res answers := let '(ok, h) := ask b h in if ok then Ok h else Ub NullDeref.

Section group.
Context (pf : platform) (c : gcfg).

(** 163-247 insert: realloc (178), then m_data[newblocksize-1] = 0 *)
Definition mcg_insert (d : core) (i : nat) (x : N) (w n : nat) (h : answers) : res (core * answers) :=
  h ← req (cdiv (w * n) 64 <? cdiv (w * (n + 2)) 64)%nat h;
  d ← cg_insert pf d i x w n; Ok (d, h).
(** 463-488 initialize: malloc in both core groups (100) and of m_border (471), each followed by memset *)
Definition mkv_init (g : kvgroup) (groupsize kw vw : nat) (h : answers) : res (kvgroup * answers) :=
  h ← req true h; h ← req true h; h ← req true h;
  Ok (kv_init g groupsize kw vw, h).
(** 517-563 push_back: realloc of m_border (526), then m_border[new_border_size-1] = 0 *)
Definition mkv_push (g : kvgroup) (bpg i : nat) (k : N) (kw : nat) (v : N) (vw : nat) (h : answers) : res (kvgroup * answers) :=
  ge ← kv_position g i;
  r ← mcg_insert (g_keys g) (ge - i) k kw (N.to_nat (g_size g)) h;
  let '(ks, h) := (r : core * answers) in
  r ← mcg_insert (g_vals g) (ge - i) v vw (N.to_nat (g_size g)) h;
  let '(vs, h) := (r : core * answers) in
  let size := u32 (g_size g + 1) in
  match g_border g with
  | None => Ub NullDeref
  | Some ws =>
      let new := kv_border_words size bpg in
      let grow := (cdiv (N.to_nat (u32 (size + N.of_nat bpg))) 64 <? new)%nat in
      h ← req grow h;
      let ws := if grow then take (new - 1) ws ++ [0%N] else ws in
      ws ← border_insert ws ge new;
      Ok (KvGroup size ks vs (Some ws), h)
  end.
(** 565-635 erase: realloc of m_border to fewer words (613); core_group::erase never asks, its condition oldblocksize < newblocksize (148) never holds *)
Definition mkv_erase (g : kvgroup) (bpg i pos kw vw : nat) (h : answers) : res (kvgroup * answers) :=
  g' ← kv_erase pf g bpg i pos kw vw;
  let '(ok, h) := ask (kv_border_words (g_size g') bpg <? kv_border_words (g_size g) bpg)%nat h in
  Ok (if ok then g' else KvGroup (g_size g') (g_keys g') (g_vals g') None, h).

(** 1000-1016, 995-1018: the rehash *)
Definition mg_rehash_bucket {T} (ins : T -> N -> N -> answers -> res (T * nav * answers)) (t : gtable) (gi : nat) (g : kvgroup)
    (th : T * answers) (r : nat) : res (T * answers) :=
  n ← kv_bucketsize g r;
  rfold (fun '(tmp, h) j =>
      kv ← kv_read pf g r j (gqw c t) (gvw t);
      k ← hash_inv_map (ghm c (gt_kw t)) (fst kv) (N.of_nat (r + gi * gbpg t)) (gt_b t);
      x ← ins tmp k (snd kv) h;
      Ok (fst (fst x), snd x)) (seq 0 n) th.
Definition mg_rehash_group {T} (ins : T -> N -> N -> answers -> res (T * nav * answers)) (t : gtable) (th : T * answers) (ig : nat * kvgroup) :
  res (T * answers) :=
  let '(gi, g) := ig in
  if kv_empty g then Ok th else rfold (mg_rehash_bucket ins t gi g) (seq 0 (gbpg t)) th.
(** 958-1035 reserve *)
Definition mg_reserve_with (ins : gtable -> N -> N -> answers -> res (gtable * nav * answers)) (t : gtable) (n nkw : N) (h : answers) : res (gtable * answers) :=
  let nkw := if nkw =? 0 then gt_kw t else nkw in
  if gt_b t =? 0 then t ← g_alloc t n; Ok (t, h)
  else
    bits ← reserve_bits n;
    tmp ← g_alloc (GTable None 0 0 (u8 nkw) (gt_vw t) 64) (2^bits);
    gc ← g_group_count t;
    match gt_groups t with
    | None => Ub NullDeref
    | Some gs =>
        if N.of_nat (length gs) <? gc then Ub OobRead
        else rfold (mg_rehash_group ins t) (imap pair (take (N.to_nat gc) gs)) (tmp, h)
    end.
(** 1185-1277 find_or_insert *)
Fixpoint mg_find_or_insert (fuel : nat) (t : gtable) (k v : N) (h : answers) : res (gtable * nav * answers) :=
  match fuel with
  | O => Timeout
  | S f =>
      t ← (if gt_b t =? 0 then g_alloc t (N.min (sub64 (gt_kw t) 1) 8) else Ok t);
      qb ← hash_map (ghm c (gt_kw t)) k (gt_b t);
      let '(q, bk) := (qb : N * N) in
      g ← g_group t bk;
      n ← kv_bucketsize g (g_rank t bk);
      pos ← g_locate_q pf c t bk q;
      match (pos : option N) with
      | Some p => Ok (t, (bk, p), h)
      | None =>
          if g_size g =? g_max_group then
            m ← shl64 1 (gt_b t + 1);
            th ← mg_reserve_with (mg_find_or_insert f) t m 0 h;
            let '(t, h) := (th : gtable * answers) in
            mg_find_or_insert f t k v h
          else
            r ← (if kv_initialized g then Ok (g, h) else mkv_init g (gbpg t) (gqw c t) (gvw t) h);
            let '(g, h) := (r : kvgroup * answers) in
            r ← mkv_push g (gbpg t) (g_rank t bk) q (gqw c t) v (gvw t) h;
            let '(g, h) := (r : kvgroup * answers) in
            Ok (g_set (g_set_n t (u64 (gt_n t + 1))) bk g, (bk, N.of_nat n), h)
      end
  end.
Definition mg_reserve (fuel : nat) (t : gtable) (n nkw : N) (h : answers) : res (gtable * answers) := mg_reserve_with (mg_find_or_insert fuel) t n nkw h.

(** 1304-1364 erase(bucket, position) *)
Definition mg_erase_at (t : gtable) (x : nav) (h : answers) : res (gtable * N * answers) :=
  let '(bk, pos) := x in
  if pos =? ones64 then Ok (t, 0, h)
  else
    g ← g_group t bk;
    r ← mkv_erase g (gbpg t) (g_rank t bk) (N.to_nat pos) (gqw c t) (gvw t) h;
    let '(g, h) := (r : kvgroup * answers) in
    let g := if kv_empty g then kv_clear g else g in
    Ok (g_set (g_set_n t (sub64 (gt_n t) 1)) bk g, 1, h).
(** 1289-1294 erase(key) *)
Definition mg_erase (t : gtable) (k : N) (h : answers) : res (gtable * N * answers) :=
  if gt_b t =? 0 then Ok (t, 0, h)
  else
    l ← g_locate pf c t k;
    let '(bk, pos) := (l : N * option N) in
    mg_erase_at t (bk, match pos with Some p => p | None => ones64 end) h.
End group.
