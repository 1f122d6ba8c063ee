(** Model of group_chaining_table with an overflow (release build) on a heap where malloc and realloc can fail (see MallocModel.v, MallocGroup.v).
    The overflow tables use operator new, which never fails here. *)
From Verif Require Export MallocGroup GroupOvModel.

Section table.
Context (pf : platform) (c : gcfg) (kind : ovkind).

(** 1023-1029: the overflow elements *)
Fixpoint mgo_rehash_ov {T} (fuel : nat) (ins : T -> N -> N -> answers -> res (T * nav * answers)) (o : overflow) (i : N) (tmp : T) (h : answers) : res (T * answers) :=
  if ov_valid pf o i then
    match fuel with
    | O => Timeout
    | S f =>
        k ← ov_key pf 64 o i;
        v ← ov_get pf 64 o i;
        r ← ins tmp k v h;
        mgo_rehash_ov f ins o (ov_next pf o i) (fst (fst r)) (snd r)
    end
  else Ok (tmp, h).
(** 958-1035 reserve(n, new_key_width) *)
Definition mgo_reserve_with (ins : gotable -> N -> N -> answers -> res (gotable * nav * answers)) (t : gotable) (n nkw : N) (h : answers) : res (gotable * answers) :=
  let g := go_g t in
  let nkw := if nkw =? 0 then gt_kw g else nkw in
  if gt_b g =? 0 then t ← go_alloc pf t n; Ok (t, h)
  else
    bits ← reserve_bits n;
    tmp ← go_alloc pf (GOTable (GTable None 0 0 (u8 nkw) (gt_vw g) 64) (ov_new pf 64 64 kind)) (2^bits);
    gc ← g_group_count g;
    match gt_groups g with
    | None => Ub NullDeref
    | Some gs =>
        if N.of_nat (length gs) <? gc then Ub OobRead
        else
          th ← rfold (mg_rehash_group pf c ins g) (imap pair (take (N.to_nat gc) gs)) (tmp, h);
          let '(tmp, h) := (th : gotable * answers) in
          th ← mgo_rehash_ov (S (N.to_nat (ov_capacity (go_ov t)))) ins (go_ov t) (ov_first pf (go_ov t)) tmp h;
          _ ← ov_clear pf 64 64 (go_ov t);
          Ok th
    end.
(** 1185-1277 find_or_insert *)
Fixpoint mgo_find_or_insert (fuel : nat) (t : gotable) (k v : N) (h : answers) : res (gotable * nav * answers) :=
  match fuel with
  | O => Timeout
  | S f =>
      t ← (if gt_b (go_g t) =? 0 then go_alloc pf t (N.min (sub64 (gt_kw (go_g t)) 1) 8) else Ok t);
      let gt := go_g t in
      qb ← hash_map (ghm c (gt_kw gt)) k (gt_b gt);
      let '(q, bk) := (qb : N * N) in
      g ← g_group gt bk;
      n ← kv_bucketsize g (g_rank gt bk);
      pos ← g_locate_q pf c gt bk q;
      match (pos : option N) with
      | Some p => Ok (t, (bk, p), h)
      | None =>
          consult ← ov_need_consult (go_ov t) bk;
          opos ← (if (consult : bool) then ov_find pf 64 (go_ov t) k else Ok None);
          match (opos : option N) with
          | Some p => Ok (t, (go_bucket_count t, p), h)
          | None =>
              if g_size g =? g_max_group then
                ov ← (if ov_size (go_ov t) <? ov_capacity (go_ov t)
                      then ov_insert pf 64 64 (go_ov t) bk k v else Ok (go_ov t, None));
                let '(o, opos) := (ov : overflow * option N) in
                match (opos : option N) with
                | Some p => Ok (GOTable (go_inc gt) o, (go_bucket_count t, p), h)
                | None =>
                    n ← shl64 1 (gt_b gt + 1);
                    th ← mgo_reserve_with (mgo_find_or_insert f) (GOTable gt o) n 0 h;
                    let '(t, h) := (th : gotable * answers) in
                    mgo_find_or_insert f t k v h
                end
              else
                r ← (if kv_initialized g then Ok (g, h) else mkv_init g (gbpg gt) (gqw c gt) (gvw gt) h);
                let '(g, h) := (r : kvgroup * answers) in
                r ← mkv_push pf g (gbpg gt) (g_rank gt bk) q (gqw c gt) v (gvw gt) h;
                let '(g, h) := (r : kvgroup * answers) in
                Ok (GOTable (g_set (go_inc gt) bk g) (go_ov t), (bk, N.of_nat n), h)
          end
      end
  end.
Definition mgo_reserve (fuel : nat) (t : gotable) (n nkw : N) (h : answers) : res (gotable * answers) := mgo_reserve_with (mgo_find_or_insert fuel) t n nkw h.

(** 1304-1364 erase(bucket, position) *)
Definition mgo_erase_at (t : gotable) (x : nav) (h : answers) : res (gotable * N * answers) :=
  if snd x =? ones64 then Ok (t, 0, h)
  else if (0 <? ov_size (go_ov t)) && (fst x =? go_bucket_count t) then
    o ← ov_erase pf (go_ov t) (snd x); Ok (GOTable (g_set_n (go_g t) (sub64 (gt_n (go_g t)) 1)) o, 1, h)
  else r ← mg_erase_at pf c (go_g t) x h; Ok (GOTable (fst (fst r)) (go_ov t), snd (fst r), snd r).
(** 1289-1294 erase(key) *)
Definition mgo_erase (t : gotable) (k : N) (h : answers) : res (gotable * N * answers) :=
  if gt_b (go_g t) =? 0 then Ok (t, 0, h)
  else
    l ← go_locate pf c t k;
    let '(bk, pos) := (l : N * option N) in
    mgo_erase_at t (bk, match pos with Some p => p | None => ones64 end) h.
End table.
