(** Model of size_in_bytes (separate_chaining_table.hpp:774-788, overflow.hpp:38, 108-110, 284-286). *)
From Verif Require Export TableModel.

(** sizeof of the members, which the C++ ABI determines: sizeof(m_resize_strategy) (1 for incremental_resize, 8 for
    arbitrary_resize), the sum of the other members added in 781, sizeof(std::pair<key_type,value_type>). *)
Record sizes := Sizes { sz_strategy : N; sz_members : N; sz_pair : N }.

Section bytes.
Context (c : cfg) (sz : sizes).

(** sizeof(key_type); value_width() of the value managers (74-76, 119-121) is sizeof(value_type), or 0 for sets.
    varwidth_bucket::storage_type is uint64_t. *)
Definition key_bytes : N := c_keybits c / 8.
Definition value_bytes : N := match c_val c with KNull => 0 | k => N.of_nat (kind_bits k) / 8 end.

(** overflow.hpp:38, 108-110, 284-286; bit_size() of m_bucketfull is the number of its bits *)
Definition ov_size_in_bytes (o : overflow) : N :=
  match o with
  | ODummy => 0
  | OArray _ _ _ full =>
      u64 (N.of_nat (length full) / 8 + ARRAY_OVERFLOW_LENGTH * key_bytes + ARRAY_OVERFLOW_LENGTH * (N.of_nat (vbn c) / 8) + 1)
  | OUmap nb _ full => u64 (N.of_nat (length full) / 8 + sz_pair sz * nb)
  end.

(** 782-785: one bucket *)
Definition slot_in_bytes (t : table) (bytes : N) (s : slot) : res N :=
  n ← ceil_div (s_size s * remainder_width (hm c t) (t_b t)) (key_bytes * 8);
  Ok (u64 (u64 (bytes + u64 (n * key_bytes)) + value_bytes * s_size s)).

(** 774-788 *)
Definition size_in_bytes (t : table) : res N :=
  let bytes := u64 (sz_strategy sz * bucket_count t + sz_members sz) in
  bytes ← (if bucket_count t =? 0 then Ok bytes
           else match t_slots t with
                | None => Ub NullDeref
                | Some sl => rfold (slot_in_bytes t) (take (N.to_nat (bucket_count t)) sl) bytes
                end);
  Ok (u64 (bytes + ov_size_in_bytes (t_ov t))).
End bytes.
