(** Outcomes of model functions, machine-word helpers and tactics.
    Not tied to a particular source file. *)
From stdpp Require Export prelude.
From Coq Require Export NArith ZArith Lia ZifyBool ZifyNat ZifyN.
#[global] Open Scope N_scope.

(** Reasons for undefined behaviour. *)
Inductive ub :=
| OobRead        (* read outside the accessible part of a block *)
| OobWrite       (* write outside a block *)
| NullDeref      (* access through a null pointer *)
| ShiftTooLarge  (* shift amount not in [0..63] *)
| BadFree        (* deallocation function does not match the allocation function *)
| Indeterminate  (* use of an indeterminate value *)
| DivZero
| DoubleFree.

(** Outcome of a model function: a value, undefined behaviour, a C++ exception,
    or exhausted recursion fuel.  The last three are never confused with a value. *)
Inductive res (A : Type) :=
| Ok (a : A)
| Ub (u : ub)
| Throw
| Timeout.
Arguments Ok {A}. Arguments Ub {A}. Arguments Throw {A}. Arguments Timeout {A}.

#[global] Instance res_ret : MRet res := fun A a => Ok a.
#[global] Instance res_bind : MBind res := fun A B f m =>
  match m with Ok a => f a | Ub u => Ub u | Throw => Throw | Timeout => Timeout end.
#[global] Instance res_map : FMap res := fun A B f m =>
  match m with Ok a => Ok (f a) | Ub u => Ub u | Throw => Throw | Timeout => Timeout end.

Definition is_ok {A} (r : res A) : bool := match r with Ok _ => true | _ => false end.
Definition is_ub {A} (r : res A) : bool := match r with Ub _ => true | _ => false end.
Definition of_option {A} (u : ub) (o : option A) : res A :=
  match o with Some a => Ok a | None => Ub u end.
Definition guard_ub (b : bool) (u : ub) : res unit := if b then Ok tt else Ub u.

Fixpoint rfold {A B} (f : A -> B -> res A) (l : list B) (a : A) : res A :=
  match l with [] => Ok a | x :: l' => a' ← f a x; rfold f l' a' end.
Fixpoint rmap {A B} (f : A -> res B) (l : list A) : res (list B) :=
  match l with [] => Ok [] | x :: l' => y ← f x; ys ← rmap f l'; Ok (y :: ys) end.

(** Unsigned machine words. *)
Definition u8  (x : N) : N := x mod 2^8.
Definition u32 (x : N) : N := x mod 2^32.
Definition u64 (x : N) : N := x mod 2^64.
Definition ones64 : N := 2^64 - 1.                          (* -1ULL *)
Definition sub64 (a b : N) : N := u64 (a + 2^64 - u64 b).   (* a - b on uint64_t *)
Definition sub8 (a b : N) : N := u8 (a + 2^8 - u8 b).       (* converted to uint8_t *)

(** [shl]/[shr] of a uint64_t: shift amounts outside [0..63] are undefined. *)
Definition shr64 (x k : N) : res N := if k <? 64 then Ok (N.shiftr x k) else Ub ShiftTooLarge.
Definition shl64 (x k : N) : res N := if k <? 64 then Ok (u64 (N.shiftl x k)) else Ub ShiftTooLarge.

(** [lia] with division and modulo. *)
Ltac dlia := zify; Z.div_mod_to_equations; lia.

(** Inverts a successful bind. *)
Ltac rinv H :=
  match type of H with
  | mbind _ ?m = Ok _ =>
      let a := fresh "a" in let E := fresh "E" in
      destruct m as [a|?| |] eqn:E; cbn [mbind res_bind] in H; try discriminate H
  end.
