(** Model of serialize and deserialize: overflow.hpp, separate_chaining_table.hpp:790-850.
    A stream is a list of bits; a bit is [None] if an indeterminate bit of memory was written. *)
From Verif Require Export TableModel.

(** is.read into a variable with the given old content; [None]: the variable has indeterminate bits. *)
Definition read_var (s : stream) (old : bits) : option N * stream :=
  let '(c, s') := st_read s old in (bits_cell c, s').
Definition used (x : option N) : res N := of_option Indeterminate x.

Section serial.
Context (pf : platform) (c : cfg).
Notation kb := (kbn c). Notation vb := (vbn c).

(** overflow.hpp:34, 102-106, 224-231.  map_overflow writes the bytes at the address given by the key. *)
Definition ov_serialize (o : overflow) : res stream :=
  match o with
  | ODummy => Ok []
  | OArray ks vs e _ =>
      k ← b_serialize pf (KPlain kb) ks (N.to_nat e) 0;
      v ← b_serialize pf (KPlain vb) vs (N.to_nat e) 0;
      Ok (nbits 64 e ++ k ++ v)
  | OUmap _ els _ => match els with [] => Ok (nbits 64 0) | _ => Ub OobRead end
  end.

(** overflow.hpp:215-221: n elements; key and value are uninitialised locals *)
Fixpoint um_read (n : nat) (nb : N) (els : list (N * N)) (s : stream) : res (N * list (N * N) * stream) :=
  match n with
  | O => Ok (nb, els, s)
  | S n' =>
      let '(k, s) := read_var s (replicate kb None) in
      let '(v, s) := read_var s (replicate vb None) in
      k ← used k; v ← used v;
      let '(nb, els) := um_assign pf nb els k v in
      um_read n' nb els s
  end.
(** overflow.hpp:32, 97-101 (m_elements is a member; the buckets were cleared before), 211-223 *)
Definition ov_deserialize (o : overflow) (s : stream) : res (overflow * stream) :=
  match o with
  | ODummy => Ok (ODummy, s)
  | OArray _ _ e full =>
      let '(e, s) := read_var s (nbits 64 e) in
      e ← used e;
      let '(ks, s) := b_deserialize pf (KPlain kb) s (N.to_nat e) 0 in
      let '(vs, s) := b_deserialize pf (KPlain vb) s (N.to_nat e) 0 in
      Ok (OArray ks vs e full, s)
  | OUmap nb els full =>
      let '(n, s) := read_var s (replicate 64 None) in
      n ← used n;
      r ← um_read (N.to_nat n) (um_policy pf nb n) els s;
      let '(nb, els, s) := (r : N * list (N * N) * stream) in
      Ok (OUmap nb els full, s)
  end.

(** 803-806 one bucket *)
Definition ser_slot (t : table) (s : slot) : res stream :=
  if s_size s =? 0 then Ok []
  else
    k ← b_serialize pf (c_key c) (s_keys s) (N.to_nat (s_size s)) (qwidth c t);
    v ← b_serialize pf (c_val c) (s_vals s) (N.to_nat (s_size s)) (vwidth t);
    Ok (k ++ v).
(** 790-808 serialize: m_key_width, m_value_width, m_buckets and the bucket sizes are bytes, m_elements a size_t *)
Definition serialize (t : table) : res stream :=
  o ← ov_serialize (t_ov t);
  let head := nbits 8 (t_kw t) ++ nbits 8 (t_vw t) ++ nbits 8 (t_b t) ++ nbits 64 (t_n t) in
  if bucket_count t =? 0 then Ok (o ++ head)
  else match t_slots t with
       | None => Ub NullDeref
       | Some sl =>
           let sl := take (N.to_nat (bucket_count t)) sl in
           d ← rmap (ser_slot t) sl;
           Ok (o ++ head ++ concat (map (fun s => nbits 8 (s_size s)) sl) ++ concat d)
       end.

(** 826-829: the sizes read into m_bucketsizes *)
Fixpoint de_sizes (n : nat) (s : bits) : res (list N) :=
  match n with
  | O => Ok []
  | S n' => x ← used (bits_cell (take 8 s)); l ← de_sizes n' (drop 8 s); Ok (x :: l)
  end.
(** 829-832 the buckets *)
Fixpoint de_slots (t : table) (sl : list slot) (sizes : list N) (s : stream) : list slot * stream :=
  match sl, sizes with
  | a :: sl', n :: sizes' =>
      if n =? 0 then let '(l, s) := de_slots t sl' sizes' s in (Slot (s_keys a) (s_vals a) n (s_cap a) :: l, s)
      else
        let '(k, s) := b_deserialize pf (c_key c) s (N.to_nat n) (qwidth c t) in
        let '(v, s) := b_deserialize pf (c_val c) s (N.to_nat n) (vwidth t) in
        let '(l, s) := de_slots t sl' sizes' s in
        (Slot k v n (s_cap a) :: l, s)
  | _, _ => (sl, s)
  end.
(** 809-850 deserialize.  Stream errors are never checked: the members keep their old bits, the local
    [buckets] is uninitialised.  [fuel] is for reserve. *)
Definition deserialize (fuel : nat) (t : table) (s : stream) : res (table * stream) :=
  t ← clear pf c t;
  os ← ov_deserialize (t_ov t) s;
  let '(o, s) := (os : overflow * stream) in
  let '(kw, s) := read_var s (nbits 8 (t_kw t)) in
  let '(vw, s) := read_var s (nbits 8 (t_vw t)) in
  kw ← used kw; vw ← used vw;
  let '(b, s) := read_var s (replicate 8 None) in
  b ← used b;
  n ← shl64 1 b;
  t ← reserve pf c fuel (Table (t_slots t) (t_b t) (t_n t) kw vw o) n;
  let '(n, s) := read_var s (nbits 64 (t_n t)) in
  n ← used n;
  if bucket_count t =? 0 then Ok (set_n t n, s)
  else match t_slots t with
       | None => Ub NullDeref
       | Some sl =>
           let nb := N.to_nat (bucket_count t) in
           let '(sb, s) := st_read s (concat (map (fun s => nbits 8 (s_size s)) (take nb sl))) in
           sizes ← de_sizes nb sb;
           let '(sl', s) := de_slots t (take nb sl) sizes s in
           Ok (Table (Some (sl' ++ drop nb sl)) (t_b t) n (t_kw t) (t_vw t) (t_ov t), s)
       end.
End serial.
