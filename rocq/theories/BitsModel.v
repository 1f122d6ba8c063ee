(** Bit-addressed memory blocks and the contract of the sdsl bit-field functions
    (tdc::tdc_sdsl::bits_impl<>, external to /repo) used by bucket.hpp, compact_chaining_map.hpp
    and group_chaining.hpp. *)
From Verif Require Export Base.
#[local] Open Scope nat_scope.

(** Behaviour of the execution platform that C++ leaves open.  All theorems quantify over it. *)
Record platform := Platform {
  slack : nat;                (* bytes after each heap block that can be accessed without a fault; 0 = strict C++ *)
  zero_fresh : bool;          (* fresh memory happens to read as zero (otherwise: indeterminate) *)
  loose_free : bool;          (* the allocator tolerates malloc/new[]/_mm_malloc mismatches *)
  um_hash : N -> N;           (* std::hash used by std::unordered_map *)
  um_policy : N -> N -> N     (* bucket_count after reserve(n) on a map with the given bucket_count *)
}.

(** A bit is [None] if it is indeterminate.  Bit k of a block is bit (k mod 8) of byte k/8. *)
Notation bits := (list (option bool)).

Definition fresh_bits (pf : platform) (n : nat) : bits :=
  replicate n (if zero_fresh pf then Some false else None).

(** Number <-> bits, least significant bit first. *)
Definition bits_of (w : nat) (x : N) : list bool :=
  map (fun i => N.testbit x (N.of_nat i)) (seq 0 w).
Definition bits_val (bs : list bool) : N :=
  foldr (fun b a => (N.b2n b + 2 * a)%N) 0%N bs.

(** All bits determinate? *)
Fixpoint det {A} (l : list (option A)) : option (list A) :=
  match l with
  | [] => Some []
  | Some b :: l' => match det l' with Some r => Some (b :: r) | None => None end
  | None :: _ => None
  end.
Definition raw_val (c : bits) : res N :=
  match det c with Some bs => Ok (bits_val bs) | None => Ub Indeterminate end.

(** [len] bits at bit position [pos]; bits after the block are indeterminate. *)
Definition rdbits (l : bits) (pos len : nat) : bits := take len (drop pos l ++ replicate len None).
Definition wrbits (l : bits) (pos : nat) (c : bits) : bits :=
  take pos l ++ c ++ drop (pos + length c) l.

(** The functions touch the 64-bit word at bit address [word], and the next one iff offset+len > 64. *)
Definition touched_end (word off len : nat) : nat :=
  if 64 <? off + len then word + 128 else word + 64.
Definition accessible (pf : platform) (l : bits) (e : nat) : bool := e <=? length l + 8 * slack pf.

(** read_int(word, offset, len) without interpreting the bits. *)
Definition read_raw (pf : platform) (l : bits) (word off len : nat) : res bits :=
  if accessible pf l (touched_end word off len) then Ok (rdbits l (word + off) len) else Ub OobRead.
(** write_int(word, x, offset, len): the other bits of the touched words are written back unchanged. *)
Definition write_raw (pf : platform) (l : bits) (word off : nat) (c : bits) : res bits :=
  if accessible pf l (touched_end word off (length c)) && (word + off + length c <=? length l)
  then Ok (wrbits l (word + off) c) else Ub OobWrite.

Definition read_int (pf : platform) (l : bits) (word off len : nat) : res N :=
  c ← read_raw pf l word off len; raw_val c.
Definition write_int (pf : platform) (l : bits) (word off len : nat) (x : N) : res bits :=
  write_raw pf l word off (map Some (bits_of len x)).

(** The *_and_move variants advance the (word, offset) pair. *)
Definition move_right (word off len : nat) : nat * nat :=
  if off + len <? 64 then (word, off + len) else (word + 64, off + len - 64).
(** move_left(word, offset, len): steps back by len <= 64 bits; word may reach before the block
    (represented with an integer address by the callers that need it). *)

(** Bits of a stream / of a variable in memory. *)
Notation stream := bits.
Definition nbits (w : nat) (x : N) : bits := map Some (bits_of w x).

(** istream::read into a buffer whose old content is [old]: reads as many bits as are available
    and leaves the rest of the buffer untouched. *)
Definition st_read (s : stream) (old : bits) : bits * stream :=
  let got := take (length old) s in
  (got ++ drop (length got) old, drop (length old) s).
