(** Model of include/separate/select.hpp:227-255. *)
From Verif Require Export SelectTables.

(** [__builtin_ctzll x], defined for x <> 0 (compiler contract): position of the lowest set bit. *)
Fixpoint ctz_aux (fuel : nat) (x : N) : N :=
  match fuel with
  | O => 0
  | S f => if N.odd x then 0 else 1 + ctz_aux f (N.div2 x)
  end.
Definition ctz64 (x : N) : res N := if x =? 0 then Ub Indeterminate else Ok (ctz_aux 64 x).

(** select.hpp:227-255, the portable branch (#else of __BMI2__).  Indices outside the tables are out-of-bounds reads. *)
Definition select64_swar (x i : N) : res N :=
  let s := x in
  let s := sub64 s (N.land (N.shiftr s 1) 0x5555555555555555) in
  let s := u64 (N.land s 0x3333333333333333 + N.land (N.shiftr s 2) 0x3333333333333333) in
  let s := N.land (u64 (s + N.shiftr s 4)) 0x0F0F0F0F0F0F0F0F in
  let s := u64 (0x0101010101010101 * s) in
  po ← of_option OobRead (ps_overflow !! N.to_nat i);
  let b := N.land (u64 (s + po)) 0x8080808080808080 in
  t ← ctz64 b;
  let byte_nr := N.shiftr t 3 in
  let s := u64 (N.shiftl s 8) in
  let i := u32 (i + 2^32 - N.land (N.shiftr s (N.shiftl byte_nr 3)) 0xFF) in
  l ← of_option OobRead (lt_sel !! N.to_nat (u32 (u32 (i + 2^32 - 1) * 2^8)
                            + N.land (N.shiftr x (N.shiftl byte_nr 3)) 0xFF));
  Ok (N.shiftl byte_nr 3 + l).

(** _pdep_u64 src mask (architectural contract): deposits the low bits of [src] at the set bits of [mask]. *)
Fixpoint pdep_aux (fuel : nat) (src m : N) : N :=
  match fuel with
  | O => 0
  | S f => if N.odd m then (N.b2n (N.odd src)) + 2 * pdep_aux f (N.div2 src) (N.div2 m)
           else 2 * pdep_aux f src (N.div2 m)
  end.
Definition pdep64 (src m : N) : N := pdep_aux 64 src m.

(** select.hpp:233-235, the __BMI2__ branch. *)
Definition select64_bmi (x i : N) : res N :=
  o ← shl64 1 (u32 (i + 2^32 - 1));
  ctz64 (pdep64 o x).
