(** Model of include/separate/size.hpp. *)
From Verif Require Export Base.

(** size.hpp:8 MAX_BUCKET_BYTESIZE *)
Definition MAX_BUCKET_BYTESIZE : N := 255.

(** size.hpp:100-103 arbitrary_resize::resize.  [newsize*1.5f] is computed in [float], which is exact for
    newsize < 2^23 and at least 255 for all larger values, so the truncated product
    capped at 255 is min(floor(3*newsize/2), 255). *)
Definition arb_resize (newsize : N) : N :=
  if newsize <? MAX_BUCKET_BYTESIZE / 4 then newsize * 2
  else N.min (newsize * 3 / 2) 255.

(** size.hpp:73-75 arbitrary_resize::needs_resize; [newsize] is passed as uint8_t. *)
Definition arb_needs_resize (maxsize newsize : N) : bool := maxsize <=? u8 newsize.

(** size.hpp:77-82 arbitrary_resize::size_after_increment: new capacity, stored as uint8_t. *)
Definition arb_size_after_increment (newsize : N) : N := u8 (arb_resize (u8 newsize)).

(** size.hpp:91 can_shrink *)
Definition arb_can_shrink (maxsize current_size : N) : bool := current_size <? maxsize.

(** size.hpp:12-28 incremental_resize: always resizes, to exactly the requested size. *)
Definition inc_needs_resize : bool := true.
Definition inc_size_after_increment (newsize : N) : N := newsize.
