(** Properties of the buckets (include/separate/bucket.hpp). *)
From Verif Require Import BucketProps.
#[local] Open Scope nat_scope.

(** A strict platform: nothing after a block may be touched, fresh memory is indeterminate, and
    deallocation functions must match.  Used for witnesses. *)
Definition strict_pf : platform := Platform 0 false false (fun k => k) (fun _ n => N.max 1 n).
Definition lax_pf : platform := Platform 16 false false (fun k => k) (fun _ n => N.max 1 n).

(** C17: elements of a packed bucket are independent.  The other elements keep even their outcome
    (a value or "indeterminate").  The memory condition is the subject of C35. *)
Theorem C17_packed_cells_independent :
  forall pf iw w t bs i v,
  width_ok iw -> 1 <= w <= 64 ->
  8 <= slack pf \/ iw = 64 /\ length bs mod 64 = 0 ->
  (i + 1) * w <= length bs ->
  exists bs', b_write pf (KVar iw) (Some (t, Bits bs)) i v w = Ok (Some (t, Bits bs'))
    /\ length bs' = length bs
    /\ b_read pf (KVar iw) (Some (t, Bits bs')) i w = Ok (v mod 2^N.of_nat w)%N
    /\ (forall j, j <> i ->
          b_read pf (KVar iw) (Some (t, Bits bs')) j w = b_read pf (KVar iw) (Some (t, Bits bs)) j w)
    /\ (forall k, k < i * w \/ (i + 1) * w <= k -> bs' !! k = bs !! k).
Proof. exact packed_cells_independent. Qed.
Print Assumptions C17_packed_cells_independent.
Example C17_case :
  let b0 := b_initialize lax_pf (KVar 8) 4 11 in
  (b1 ← b_write lax_pf (KVar 8) b0 1 1234%N 11; b2 ← b_write lax_pf (KVar 8) b1 2 4095%N 11;
   x ← b_read lax_pf (KVar 8) b2 1 11; y ← b_read lax_pf (KVar 8) b2 2 11; Ok (x, y)) = Ok (1234%N, 2047%N).
Proof. vm_compute. reflexivity. Qed.

(** C18: find returns the first match.  [xs] are the elements as seen by read(); [fits] says that elements
    and search key are values of the element type. *)
Theorem C18_find_first_match :
  forall pf kd w b xs key,
  kind_ok kd w -> typed kd b -> find_room pf kd b ->
  (forall i x, xs !! i = Some x -> b_read pf kd b i w = Ok x) ->
  Forall (fits kd w) xs -> fits kd w key ->
  exists r, b_find pf kd b key (length xs) w = Ok r
    /\ match r with
       | Some p => xs !! p = Some key /\ forall j, j < p -> xs !! j <> Some key
       | None => key ∉ xs
       end.
Proof. exact bucket_find_first. Qed.
Print Assumptions C18_find_first_match.
Example C18_case :
  let b := Some (TMm, Cells (map Some [1; 2; 3; 7; 7; 9; 4; 7; 5]%N)) in
  b_find strict_pf (KAvx 64) b 7%N 9 0 = Ok (Some 3) /\ b_find strict_pf (KAvx 64) b 5%N 9 0 = Ok (Some 8)
  /\ b_find strict_pf (KAvx 64) b 6%N 9 0 = Ok None /\ b_find strict_pf (KPlain 64) b 7%N 9 0 = Ok (Some 3).
Proof. vm_compute. auto. Qed.

(** C35 is false: with 8-bit units the first write into a fresh one-element bucket touches a 64-bit word
    that is larger than the block; with 64-bit units erasing the last element reads the word after the block. *)
Theorem C35_packed_access_in_bounds_refuted :
  (exists w v, b_write strict_pf (KVar 8) (b_initialize strict_pf (KVar 8) 1 w) 0 v w = Ub OobWrite)
  /\ (exists w v b, b_write strict_pf (KVar 64) (b_initialize strict_pf (KVar 64) 1 w) 0 v w = Ok b
        /\ b_erase strict_pf (KVar 64) b 0 1 w = Ub OobRead).
Proof.
  split; [exists 8, 5%N; vm_compute; reflexivity|].
  exists 64, 5%N. eexists. split; vm_compute; reflexivity.
Qed.
Print Assumptions C35_packed_access_in_bounds_refuted.

(** What does hold: with 16 accessible bytes after each block no operation faults, for every block type;
    and with 64-bit units read, write and find never leave the block at all. *)
Theorem C35_packed_access_partial :
  (forall pf iw w cap b xs, 16 <= slack pf -> width_ok iw -> 1 <= w <= 64 ->
     brepr pf (KVar iw) w cap b xs ->
     (forall i, i < length xs -> is_ok (b_read pf (KVar iw) b i w) = true)
     /\ (forall i v, i < cap -> is_ok (b_write pf (KVar iw) b i v w) = true)
     /\ (forall i, i < length xs -> is_ok (b_erase pf (KVar iw) b i (length xs) w) = true)
     /\ (forall key, (key < 2^N.of_nat w)%N -> is_ok (b_find pf (KVar iw) b key (length xs) w) = true)
     /\ (forall new, length xs <= new -> is_ok (b_resize pf (KVar iw) b (length xs) new w) = true))
  /\ (forall pf w cap b xs, 1 <= w <= 64 ->
     brepr pf (KVar 64) w cap b xs ->
     (forall i, i < length xs -> is_ok (b_read pf (KVar 64) b i w) = true)
     /\ (forall i v, i < cap -> is_ok (b_write pf (KVar 64) b i v w) = true)
     /\ (forall key, (key < 2^N.of_nat w)%N -> is_ok (b_find pf (KVar 64) b key (length xs) w) = true)).
Proof. exact packed_access. Qed.
Print Assumptions C35_packed_access_partial.
Example C35_case :
  let b := Some (TMalloc, Bits (nbits 16 (5 + 32 * 7)%N)) in
  brepr lax_pf (KVar 8) 5 3 b [5%N; 7%N]
  /\ (b' ← b_erase lax_pf (KVar 8) b 0 2 5; b_read lax_pf (KVar 8) b' 0 5) = Ok 7%N.
Proof.
  split; [|vm_compute; reflexivity].
  eexists _, _. split; [reflexivity|]. split; [reflexivity|].
  split; [vm_compute; lia|]. split; [vm_compute; lia|]. split; [reflexivity|]. split.
  - intros [|[|i]] x H; [..|discriminate H]; injection H as <-; vm_compute; reflexivity.
  - repeat constructor.
Qed.

(** C36: bits outside the written element, and outside the elements at or after the erased position, are
    never changed, on any platform; the block keeps its size (a write beyond it would be [Ub OobWrite]). *)
Theorem C36_no_stray_writes :
  (forall pf iw w t bs i v bs', width_ok iw ->
     b_write pf (KVar iw) (Some (t, Bits bs)) i v w = Ok (Some (t, Bits bs')) ->
     length bs' = length bs /\ forall k, k < i * w \/ (i + 1) * w <= k -> bs' !! k = bs !! k)
  /\ (forall pf iw bs pos len w bs', width_ok iw -> pos < len ->
     bits_erase pf iw bs pos len w = Ok bs' ->
     length bs' = length bs /\ forall k, k < pos * w \/ len * w <= k -> bs' !! k = bs !! k)
  /\ (forall cs pos len cs', cells_erase_loop cs (pos + 1) (len - (pos + 1)) = Ok cs' -> pos < len ->
     length cs' = length cs /\ forall k, k < pos \/ len <= k -> cs' !! k = cs !! k).
Proof. exact no_stray_writes. Qed.
Print Assumptions C36_no_stray_writes.
Example C36_case :
  let bs := nbits 24 0xABCDEF%N in
  match bits_erase lax_pf 8 bs 1 4 5 with
  | Ok bs' => take 5 bs' = take 5 bs /\ rdbits bs' 5 10 = rdbits bs 10 10 /\ drop 20 bs' = drop 20 bs /\ bs' <> bs
  | _ => False
  end.
Proof. vm_compute. repeat split; congruence. Qed.
