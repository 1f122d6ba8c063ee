(** How much memory a bucket holds: the specification used by C111. *)
From Verif Require Export TableModel.

(** Number of elements (plain, class and avx2 buckets) or of bits (varwidth buckets) of the allocated block. *)
Definition block_len (b : bucket) : nat :=
  match b with None => 0 | Some (_, Cells cs) => length cs | Some (_, Bits bs) => length bs end%nat.
(** Buckets that store an array of elements. *)
Definition array_kind (kd : bkind) : Prop := match kd with KPlain _ | KClass _ | KAvx _ => True | _ => False end.
(** The bits that n elements of width w take in whole units of internal_t, and the block length in the units of [block_len]. *)
Definition packed (iw n w : nat) : nat := (iw * ((n * w + iw - 1) / iw))%nat.
Definition exact_len (kd : bkind) (n w : nat) : nat :=
  match kd with KVar iw => packed iw n w | KNull => 0 | _ => n end%nat.
(** The buckets in use. *)
Definition slots_of (t : table) : list slot := match t_slots t with Some sl => sl | None => [] end.
Definition total_len (f : slot -> bucket) (t : table) : nat := sum_list_with (fun s => block_len (f s)) (slots_of t).
