(** Model of compact_chaining_map on a heap where malloc and realloc can fail (answers as in MallocModel.v).
    The results are stored unchecked: compact_chaining_map.hpp:309, 310 (malloc of the arrays) and 484 (realloc of a block). *)
From Verif Require Export MallocModel CompactModel.

Section compact.
Context (pf : platform) (c : ccfg).
Notation sb := (cc_sb c).

(** 297-316 reserve, first branch: both arrays are asked for (309, 310), then filled (313, 315) *)
Definition mc_alloc (t : cmap) (n : N) (h : answers) : res (cmap * answers) :=
  t' ← c_alloc t n;
  let '(ok1, h) := ask true h in
  let '(ok2, h) := ask true h in
  if ok1 && ok2 then Ok (t', h) else Ub NullDeref.

(** 479-488 realloc_bucket: on failure realloc keeps the old block, the pointer to it is overwritten.  realloc(p, 0) releases the block and
    does not fail. *)
Definition mc_realloc (s : cslot) (old w : nat) (h : answers) : cslot * answers :=
  let new := N.to_nat (cs_size s) in
  let '(ok, h) := ask (negb (cdiv (old * w) sb =? cdiv (new * w) sb)%nat && negb (cdiv (new * w) sb =? 0)%nat) h in
  (if ok then cs_realloc pf c s old w else CSlot None (cs_size s), h).

(** 490-522 enlarge_storage *)
Definition mc_enlarge (s : cslot) (qw vw : nat) (h : answers) : res (cslot * answers) :=
  let old := N.to_nat (cs_size s) in
  let s := CSlot (cs_data s) (u8 (cs_size s + 1)) in
  let '(s, h) := mc_realloc s (N.to_nat (sub64 (cs_size s) 1)) (qw + vw) h in
  d ← rfold (c_move pf sb vw)
        (map (fun i => (old * qw + (old - i) * vw, N.to_nat (cs_size s) * qw + (old - i) * vw)%nat) (seq 1 old))
        (cs_data s);
  Ok (CSlot d (cs_size s), h).

(** 328-342: one bucket of the rehashing loop *)
Definition mc_rehash_slot (ins : cmap -> N -> N -> answers -> res (cmap * nav * answers)) (t : cmap) (th : cmap * answers) (ib : nat * cslot) : res (cmap * answers) :=
  let '(i, s) := ib in
  if cs_size s =? 0 then Ok th
  else
    th ← rfold (fun '(tmp, h) j =>
        q ← cs_quot pf c s j (cqw c t);
        k ← hash_inv_map (chm c (cm_kw t)) q (N.of_nat i) (cm_b t);
        v ← cs_value pf c s j (cqw c t) (cvw t);
        r ← ins tmp k v h;
        Ok (fst (fst r), snd r)) (seq 0 (N.to_nat (cs_size s))) th;
    _ ← c_clear_slot pf s;
    Ok th.
(** 297-346 reserve *)
Definition mc_reserve_with (ins : cmap -> N -> N -> answers -> res (cmap * nav * answers)) (t : cmap) (n : N) (h : answers) : res (cmap * answers) :=
  if cm_b t =? 0 then mc_alloc t n h
  else
    bits ← reserve_bits n;
    th ← mc_alloc (c_new (cm_kw t) (cm_vw t)) (2^bits) h;
    match cm_slots t with
    | None => Ub NullDeref
    | Some sl =>
        th ← rfold (mc_rehash_slot ins t) (imap pair (take (N.to_nat (c_bucket_count t)) sl)) th;
        _ ← c_clear_structure pf t;
        Ok th
    end.

(** 568-615 find_or_insert *)
Fixpoint mc_find_or_insert (fuel : nat) (t : cmap) (k v : N) (h : answers) : res (cmap * nav * answers) :=
  match fuel with
  | O => Timeout
  | S f =>
      th ← (if cm_b t =? 0 then mc_alloc t (N.min (sub64 (cm_kw t) 1) 16) h else Ok (t, h));
      let '(t, h) := (th : cmap * answers) in
      qb ← hash_map (chm c (cm_kw t)) k (cm_b t);
      let '(q, bk) := (qb : N * N) in
      s ← c_slot t bk;
      pos ← c_locate_q pf c t bk q;
      match (pos : option N) with
      | Some p => Ok (t, (bk, p), h)
      | None =>
          if cs_size s =? c_max_bucket then
            n ← shl64 1 (cm_b t + 1);
            th ← mc_reserve_with (mc_find_or_insert f) t n h;
            let '(t, h) := (th : cmap * answers) in
            mc_find_or_insert f t k v h
          else
            let former := N.to_nat (cs_size s) in
            r ← mc_enlarge s (cqw c t) (cvw t) h;
            let '(s, h) := (r : cslot * answers) in
            s ← cs_set_quot pf c s former (cqw c t) q;
            s ← cs_set_value pf c s former (cqw c t) (cvw t) v;
            Ok (c_set (c_set_n t (u64 (cm_n t + 1))) bk s, (bk, sub64 (cs_size s) 1), h)
      end
  end.
Definition mc_reserve (fuel : nat) (t : cmap) (n : N) (h : answers) : res (cmap * answers) := mc_reserve_with (mc_find_or_insert fuel) t n h.

(** 629-712 erase(bucket, position): the block is reallocated after the elements have moved (696) *)
Definition mc_cs_erase (s : cslot) (pos qw vw : nat) (h : answers) : res (cslot * answers) :=
  let n := N.to_nat (cs_size s) in
  d ← rfold (c_move pf sb qw) (map (fun i => (i * qw, (i - 1) * qw)%nat) (seq (pos + 1) (n - (pos + 1)))) (cs_data s);
  d ← rfold (c_move pf sb vw) (map (fun i => (n * qw + i * vw, (n - 1) * qw + i * vw)%nat) (seq 0 pos)) d;
  d ← rfold (c_move pf sb vw) (map (fun i => (n * qw + i * vw, (n - 1) * qw + (i - 1) * vw)%nat) (seq (pos + 1) (n - (pos + 1)))) d;
  let '(s, h) := mc_realloc (CSlot d (sub8 (cs_size s) 1)) (N.to_nat (sub8 (cs_size s) 1) + 1) (qw + vw) h in
  if cs_size s =? 0 then s ← c_clear_slot pf s; Ok (s, h) else Ok (s, h).
Definition mc_erase_at (t : cmap) (x : nav) (h : answers) : res (cmap * N * answers) :=
  let '(bk, pos) := x in
  if pos =? ones64 then Ok (t, 0, h)
  else
    s ← c_slot t bk;
    r ← mc_cs_erase s (N.to_nat pos) (cqw c t) (cvw t) h;
    let '(s, h) := (r : cslot * answers) in
    Ok (c_set (c_set_n t (sub64 (cm_n t) 1)) bk s, 1, h).
(** 716-721 erase(key) *)
Definition mc_erase (t : cmap) (k : N) (h : answers) : res (cmap * N * answers) :=
  if cm_b t =? 0 then Ok (t, 0, h)
  else
    l ← c_locate pf c t k;
    let '(bk, pos) := (l : N * option N) in
    mc_erase_at t (bk, match pos with Some p => p | None => ones64 end) h.
End compact.
