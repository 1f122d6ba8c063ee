(** Model of include/separate/math.hpp. *)
From Verif Require Export Base.

(** [__builtin_clzll x], defined for x <> 0 (compiler contract). *)
Definition clz64 (x : N) : N := 63 - N.log2 x.

(** math.hpp:6-8  most_significant_bit; the result type is [int]. *)
Definition most_significant_bit (x : N) : Z :=
  if x =? 0 then (-1)%Z else (Z.of_N 63 - Z.of_N (clz64 x))%Z.

(** math.hpp:12-14  bit_width *)
Definition bit_width (x : N) : N := if x =? 0 then 1 else 64 - clz64 x.

(** math.hpp:18-21  ceil_div for T = size_t; the sum wraps modulo 2^64. *)
Definition ceil_div (dividend divisor : N) : res N :=
  if divisor =? 0 then Ub DivZero
  else Ok (u64 (dividend + divisor + ones64) / divisor).
