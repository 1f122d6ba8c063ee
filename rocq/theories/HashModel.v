(** Model of include/separate/bijective_hash.hpp (classes) and include/separate/hash.hpp. *)
From Verif Require Export PrimeTable.

(** bijective_hash.hpp:118,159 mask(); only used with 1 <= bits <= 64 (checked by [hash_map]/[hash_inv_map]). *)
Definition bmask (w : N) : N := N.shiftr ones64 (64 - w).

(** PRIME_TABLE[w][side][i] *)
Definition prime (w side i : N) : N :=
  let row := nth (N.to_nat w) PRIME_TABLE ([], []) in
  nth (N.to_nat i) (if side =? 0 then fst row else snd row) 0.

(** bijective_hash.hpp:80-88 m_shift *)
Definition xs_shift (w : N) : N := w / 2 + 1.

(** bijective_hash.hpp:125-131 hash_<N> *)
Definition xs_hash1 (w i x : N) : N :=
  let x := N.lxor x (N.shiftr x (xs_shift w + i)) in
  N.land (u64 (x * prime w 0 i)) (bmask w).

(** bijective_hash.hpp:132-137 hash_inv_<N> *)
Definition xs_hash_inv1 (w i x : N) : N :=
  let x := N.land (u64 (x * prime w 1 i)) (bmask w) in
  N.lxor x (N.shiftr x (xs_shift w + i)).

(** bijective_hash.hpp:91-97 Xorshift::hash *)
Definition xs_hash (w x : N) : N := xs_hash1 w 2 (xs_hash1 w 1 (xs_hash1 w 0 x)).

(** bijective_hash.hpp:99-105 Xorshift::hash_inv *)
Definition xs_hash_inv (w x : N) : N := xs_hash_inv1 w 0 (xs_hash_inv1 w 1 (xs_hash_inv1 w 2 x)).

(** bijective_hash.hpp:149-152 MultiplicativeHash::hash *)
Definition mul_hash (w x : N) : N := N.land (u64 (x * prime 63 0 0)) (bmask w).

(** bijective_hash.hpp:154-157 MultiplicativeHash::hash_inv *)
Definition mul_hash_inv (w x : N) : N := N.land (u64 (x * prime 63 1 0)) (bmask w).

(** hash.hpp:7-15 SplitMix *)
Definition splitmix (x : N) : N :=
  let x := u64 (N.lxor x (N.shiftr x 30) * 0xbf58476d1ce4e5b9) in
  let x := u64 (N.lxor x (N.shiftr x 27) * 0x94d049bb133111eb) in
  N.lxor x (N.shiftr x 31).

Inductive bijfun := Xorshift | Multiplicative.
Definition bij_hash (f : bijfun) : N -> N -> N :=
  match f with Xorshift => xs_hash | Multiplicative => mul_hash end.
Definition bij_hash_inv (f : bijfun) : N -> N -> N :=
  match f with Xorshift => xs_hash_inv | Multiplicative => mul_hash_inv end.

(** The hash mapping template argument: bijective_hash_adapter<key_t,storage_t,f> or
    hash_mapping_adapter<key_t,f> for an arbitrary function object f on uint64_t. *)
Inductive hkind := HBij (f : bijfun) | HAdapter (f : N -> N).

(** A hash mapping object: the constructor argument [key_width], bits of key_t and bits of storage_t
    (storage_t = key_t for hash_mapping_adapter, hash.hpp:20-21). *)
Record hmap := HMap { h_kind : hkind; h_width : N; h_keybits : N; h_storebits : N }.

(** hash.hpp:32 and hash.hpp:56-59 remainder_width *)
Definition remainder_width (h : hmap) (table_buckets : N) : N :=
  match h_kind h with
  | HBij _ => sub8 (h_width h) table_buckets
  | HAdapter _ => h_width h
  end.

(** hash.hpp:36-39 and hash.hpp:61-69 map: (quotient, bucket).  mask() shifts by 64-m_bits,
    hence the width check; the masks of the bucket number shift by table_buckets
    resp. 64-table_buckets. *)
Definition hash_map (h : hmap) (key table_buckets : N) : res (N * N) :=
  match h_kind h with
  | HBij f =>
      if (1 <=? h_width h) && (h_width h <=? 64) then
        let hash_value := bij_hash f (h_width h) key in
        q ← shr64 hash_value table_buckets;
        m ← shl64 1 table_buckets;
        Ok (q mod 2^(h_storebits h), N.land hash_value (sub64 m 1))
      else Ub ShiftTooLarge
  | HAdapter f =>
      if (1 <=? table_buckets) && (table_buckets <=? 64) then
        Ok (key, N.land (u64 (f key)) (N.shiftr ones64 (64 - table_buckets)))
      else Ub ShiftTooLarge
  end.

(** hash.hpp:39-41 and hash.hpp:70-72 inv_map *)
Definition hash_inv_map (h : hmap) (remainder bucket table_buckets : N) : res N :=
  match h_kind h with
  | HBij f =>
      if (1 <=? h_width h) && (h_width h <=? 64) then
        r ← shl64 remainder table_buckets;
        Ok (bij_hash_inv f (h_width h) (u64 (r + bucket)) mod 2^(h_keybits h))
      else Ub ShiftTooLarge
  | HAdapter _ => Ok remainder
  end.
