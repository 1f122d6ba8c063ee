(** Model of print_stats of the tables (compiled only with STATS_ENABLED; called by users, and by reserve with PRINT_STATS).
    The logged values in their order without the name of the class.  A double that is the quotient of two integers is kept as the pair,
    a double that is a sum of squares of integers as an integer: simplified, doubles are exact here, as they are for integers up to 2^53. *)
From Verif Require Export BytesModel CompactModel GroupModel.

Inductive stat := SNum (n : N) | SFrac (a b : N) | SSum (z : Z).

(** separate_chaining_table.hpp:380-411 *)
Definition sc_stats (c : cfg) (sz : sizes) (t : table) : res (list stat) :=
  bytes ← size_in_bytes c sz t;
  cap ← capacity c t;
  Ok [SNum (size t); SNum bytes; SNum (bucket_count t); SNum (ov_size (t_ov t)); SNum (ov_capacity (t_ov t));
      SFrac (size t) (bucket_count t); SNum cap; SNum (t_kw t); SNum (t_vw t); SNum (remainder_width (hm c t) (t_b t))].

(** compact_chaining_map.hpp:281-285: size()/bucket_count() is a division of integers *)
Definition c_deviation (t : cmap) : res Z :=
  rfold (fun d i =>
    q ← (if c_bucket_count t =? 0 then Ub DivZero else Ok (c_size t / c_bucket_count t));
    s ← c_bucket_size t (N.of_nat i);
    Ok (d + (Z.of_N q - Z.of_N s) * (Z.of_N q - Z.of_N s))%Z) (seq 0 (N.to_nat (c_bucket_count t))) 0%Z.
(** 277-292 *)
Definition c_stats (t : cmap) : res (list stat) :=
  d ← c_deviation t;
  Ok [SNum (c_size t); SNum (c_bucket_count t); SSum d; SNum (cm_kw t); SNum (cm_vw t); SNum (cm_vw t); SNum c_max_bucket; SNum (c_capacity t)].

(** group_chaining.hpp:1367-1416 with dummy_overflow *)
Definition g_stats (c : gcfg) (t : gtable) : res (list stat) :=
  gc ← g_group_count t;
  cap ← g_capacity t;
  Ok [SNum (g_size_of t); SNum gc; SNum (g_bucket_count t); SNum 0; SNum 0; SNum (gt_kw t); SNum (gt_vw t);
      SNum (remainder_width (ghm c (gt_kw t)) (gt_b t)); SFrac (g_size_of t) gc; SFrac (g_size_of t) (g_bucket_count t);
      SNum g_max_group; SNum (gt_bpg t); SNum cap].
