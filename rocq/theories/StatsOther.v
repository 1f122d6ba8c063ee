(** Model of print_stats of bucket_table and of group_chaining_table with an overflow (conventions of StatsModel.v), of Xorshift::show_stat,
    and of the static size_in_bytes of the buckets. *)
From Verif Require Export StatsModel BtModel GroupOvModel HashModel.

(** bucket_table.hpp:225-229 max_bucket_size: the capacity of the resize strategy as a uint32_t; its DCHECK_LT is left out *)
Definition bt_max_bucket (c : bcfg) (t : btable) : N := u32 (st_size c (bt_len t) (bt_n t)).
(** 271-277 *)
Definition bt_stats (c : bcfg) (t : btable) : list stat :=
  [SNum (bt_size t); SNum (N.of_nat (bc_width c)); SNum (bt_max_bucket c t); SNum (bt_capacity c t)].

(** group_chaining.hpp:1367-1416; capacity() 772-774 does not count the overflow *)
Definition go_stats (c : gcfg) (t : gotable) : res (list stat) :=
  gc ← g_group_count (go_g t);
  cap ← g_capacity (go_g t);
  Ok [SNum (go_size t); SNum gc; SNum (go_bucket_count t); SNum (ov_size (go_ov t)); SNum (ov_capacity (go_ov t)); SNum (gt_kw (go_g t)); SNum (gt_vw (go_g t));
      SNum (remainder_width (ghm c (gt_kw (go_g t))) (gt_b (go_g t))); SFrac (go_size t) gc; SFrac (go_size t) (go_bucket_count t);
      SNum g_max_group; SNum (gt_bpg (go_g t)); SNum cap].

(** bijective_hash.hpp:114 mask, 108-112 show_stat: the mask and the width; -1ULL >> (64 - m_bits) is computed in int, so m_bits above 64 gives a
    negative shift *)
Definition xs_mask (bits : N) : res N := if 64 <? bits then Ub ShiftTooLarge else shr64 ones64 (64 - bits).
Definition xs_stats (bits : N) : res (list stat) := m ← xs_mask bits; Ok [SNum m; SNum bits].

(** size_in_bytes(size, width), release build: bucket.hpp:109-112 (avx2), 213-216 (plain), 396-400 (varwidth); the other classes have no such function *)
Definition b_size_in_bytes (kd : bkind) (size w : N) : option (res N) :=
  match kd with
  | KPlain es | KAvx es => Some (Ok (u64 (size * (N.of_nat es / 8))))
  | KVar iw => Some (l ← ceil_div (u64 (size * w)) (N.of_nat iw); Ok (u64 (l * (N.of_nat iw / 8))))
  | KClass _ | KNull => None
  end.
(** Debug build: the members m_length (and m_size) are counted, 110, 214, 397; line 397 does not use the width *)
Definition db_size_in_bytes (kd : bkind) (size w : N) : option N :=
  match kd with
  | KPlain es | KAvx es => Some (u64 (size * (N.of_nat es / 8) + 8))
  | KVar iw => Some (u64 (size * (N.of_nat iw / 8) + 16))
  | KClass _ | KNull => None
  end.
