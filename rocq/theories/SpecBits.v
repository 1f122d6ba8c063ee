(** Independent specification of bit counting. *)
From Verif Require Export Base.

(** Number of set bits of [x] at positions below [k]. *)
Fixpoint rank1 (x : N) (k : nat) : N :=
  match k with
  | O => 0
  | S k' => rank1 x k' + (if N.testbit x (N.of_nat k') then 1 else 0)
  end.

(** [p] is the position of the [i]-th set bit of [x], counting from one. *)
Definition is_select (x i p : N) : Prop :=
  N.testbit x p = true /\ rank1 x (N.to_nat p) = i - 1.
