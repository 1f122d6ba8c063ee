(** Model of include/separate/overflow.hpp. *)
From Verif Require Export BucketModel.

Inductive ovkind := OvDummy | OvArray | OvMap.

(** overflow.hpp:4-6 ARRAY_OVERFLOW_LENGTH (default) *)
Definition ARRAY_OVERFLOW_LENGTH : N := 256.

(** State of dummy_overflow (11-58), array_overflow (64-162) and map_overflow (170-288).
    The std::unordered_map is its bucket_count and its elements; the elements with
    hash(key) mod bucket_count = p form bucket p (in list order).  tdc::BitVector is a list of bool. *)
Inductive overflow :=
| ODummy
| OArray (keys vals : bucket) (elements : N) (full : list bool)
| OUmap (nb : N) (els : list (N * N)) (full : list bool).

Section overflow.
Context (pf : platform).
Context (kb vb : nat).   (* bits of key_type and value_type *)

Definition um_bucket (nb key : N) : N := um_hash pf key mod nb.
Definition um_chain (nb : N) (els : list (N * N)) (p : N) : list (N * N) :=
  List.filter (fun e => um_bucket nb (fst e) =? p) els.
Definition um_empty (nb : N) (els : list (N * N)) (p : N) : bool :=
  match um_chain nb els p with [] => true | _ => false end.
(** m_map[key] = value; rehashes if the load factor 1 would be exceeded (max_load_factor(1), overflow.hpp:184). *)
Definition um_assign (nb : N) (els : list (N * N)) (k v : N) : N * list (N * N) :=
  if existsb (fun e => fst e =? k) els
  then (nb, map (fun e => if fst e =? k then (k, v) else e) els)
  else if nb <? N.of_nat (length els) + 1
       then (um_policy pf nb (N.of_nat (length els) + 1), els ++ [(k, v)])
       else (nb, els ++ [(k, v)]).

(** Constructors: overflow.hpp:20, 82-85, 183-185 *)
Definition ov_new (k : ovkind) : overflow :=
  match k with
  | OvDummy => ODummy
  | OvArray => OArray (b_initialize pf (KPlain kb) (N.to_nat ARRAY_OVERFLOW_LENGTH) 0)
                      (b_initialize pf (KPlain vb) (N.to_nat ARRAY_OVERFLOW_LENGTH) 0) 0 []
  | OvMap => OUmap (um_policy pf 0 0) [] []
  end.

(** size(): 25, 77, 180 *)
Definition ov_size (o : overflow) : N :=
  match o with ODummy => 0 | OArray _ _ n _ => n | OUmap _ els _ => N.of_nat (length els) end.
(** capacity(): 26, 78, 181 *)
Definition ov_capacity (o : overflow) : N :=
  match o with ODummy => 0 | OArray _ _ _ _ => ARRAY_OVERFLOW_LENGTH | OUmap nb _ _ => nb end.
(** valid_position(): 36, 80, 187-189 *)
Definition ov_valid (o : overflow) (p : N) : bool :=
  match o with
  | ODummy => false
  | OArray _ _ n _ => p <? n
  | OUmap nb els _ => (p <? nb) && negb (um_empty nb els p)
  end.

(** Search for the next non-empty unordered_map bucket (loops 193, 198-200). *)
Fixpoint um_scan (fuel : nat) (nb : N) (els : list (N * N)) (p : N) : N :=
  match fuel with
  | O => p
  | S f => if (p <? nb) && um_empty nb els p then um_scan f nb els (p + 1) else p
  end.
(** do --position while(position > 0 && empty): 205-207 *)
Fixpoint um_scan_back (fuel : nat) (nb : N) (els : list (N * N)) (p : N) : N :=
  match fuel with
  | O => p
  | S f => if (0 <? p) && um_empty nb els p then um_scan_back f nb els (p - 1) else p
  end.

(** first_position(): 28, 87, 191-195 *)
Definition ov_first (o : overflow) : N :=
  match o with ODummy => 0 | OArray _ _ _ _ => 0 | OUmap nb els _ => um_scan (N.to_nat nb) nb els 0 end.
(** next_position(): 29, 88-91, 196-202 *)
Definition ov_next (o : overflow) (p : N) : N :=
  match o with ODummy => p | OArray _ _ _ _ => u64 (p + 1) | OUmap nb els _ => um_scan (N.to_nat nb) nb els (p + 1) end.
(** previous_position(): 30, 92-95, 203-209 *)
Definition ov_prev (o : overflow) (p : N) : N :=
  match o with ODummy => p | OArray _ _ _ _ => sub64 p 1 | OUmap nb els _ => um_scan_back (N.to_nat nb) nb els (p - 1) end.

Definition bv_get (l : list bool) (i : N) : res bool :=
  if i <? N.of_nat (length l) then of_option OobRead (l !! N.to_nat i) else Ub OobRead.
Definition bv_set (l : list bool) (i : N) : res (list bool) :=
  if i <? N.of_nat (length l) then Ok (<[N.to_nat i := true]> l) else Ub OobWrite.
(** tdc::BitVector::resize keeps old bits, new bits are 0. *)
Definition bv_resize (l : list bool) (n : N) : list bool :=
  take (N.to_nat n) l ++ replicate (N.to_nat n - length l) false.

(** resize_buckets(): 22, 137-139, 252-256 *)
Definition ov_resize_buckets (o : overflow) (n : N) : overflow :=
  match o with
  | ODummy => ODummy
  | OArray ks vs e full => OArray ks vs e (bv_resize full n)
  | OUmap nb els full => OUmap (um_policy pf nb n) els (bv_resize full n)
  end.
(** need_consult(): 23, 142-145, 258-261 *)
Definition ov_need_consult (o : overflow) (bk : N) : res bool :=
  match o with ODummy => Ok false | OArray _ _ _ full => bv_get full bk | OUmap _ _ full => bv_get full bk end.
(** find(): 41-43, 146-148 (scans all m_length slots), 262-268.  None is -1ULL. *)
Definition ov_find (o : overflow) (k : N) : res (option N) :=
  match o with
  | ODummy => Ok None
  | OArray ks _ _ _ =>
      r ← b_find pf (KPlain kb) ks k (N.to_nat ARRAY_OVERFLOW_LENGTH) 0; Ok (option_map N.of_nat r)
  | OUmap nb els _ =>
      match um_chain nb els (um_bucket nb k) with
      | [] => Ok None
      | (k', _) :: _ => if k' =? k then Ok (Some (um_bucket nb k)) else Ok None
      end
  end.
(** insert(): 40, 130-136, 241-251.  None is -1ULL. *)
Definition ov_insert (o : overflow) (bk k v : N) : res (overflow * option N) :=
  match o with
  | ODummy => Ok (ODummy, Some 0)
  | OArray ks vs e full =>
      full ← bv_set full bk;
      ks ← b_write pf (KPlain kb) ks (N.to_nat e) k 0;
      vs ← b_write pf (KPlain vb) vs (N.to_nat e) v 0;
      Ok (OArray ks vs (u64 (e + 1)) full, Some e)
  | OUmap nb els full =>
      full ← bv_set full bk;
      if negb (um_empty nb els (um_bucket nb k)) then Ok (OUmap nb els full, None)
      else let '(nb', els') := um_assign nb els k v in
           Ok (OUmap nb' els' full, Some (um_bucket nb' k))
  end.
(** operator[] as a read: 47-49, 153-156, 274-278 *)
Definition ov_get (o : overflow) (p : N) : res N :=
  match o with
  | ODummy => Ok 0
  | OArray _ vs _ _ => b_read pf (KPlain vb) vs (N.to_nat p) 0
  | OUmap nb els _ => match um_chain nb els p with [] => Ub NullDeref | (_, v) :: _ => Ok v end
  end.
(** key(): 53-55, 157-160, 279-283 *)
Definition ov_key (o : overflow) (p : N) : res N :=
  match o with
  | ODummy => Ok 0
  | OArray ks _ _ _ => b_read pf (KPlain kb) ks (N.to_nat p) 0
  | OUmap nb els _ => match um_chain nb els p with [] => Ub NullDeref | (k, _) :: _ => Ok k end
  end.
(** operator[] as an assignment: 44-46 (a shared dummy, ignored), 149-152, 269-273 *)
Definition ov_set (o : overflow) (p v : N) : res overflow :=
  match o with
  | ODummy => Ok ODummy
  | OArray ks vs e full => vs ← b_write pf (KPlain vb) vs (N.to_nat p) v 0; Ok (OArray ks vs e full)
  | OUmap nb els full =>
      match um_chain nb els p with
      | [] => Ub NullDeref
      | (k, _) :: _ => Ok (OUmap nb (map (fun e => if fst e =? k then (k, v mod 2^N.of_nat vb) else e) els) full)
      end
  end.
(** erase(): 56, 115-122, 236-239.  The loop of array_overflow::erase runs only if position > m_elements,
    and then counts down past 0. *)
Definition ov_erase (o : overflow) (p : N) : res overflow :=
  match o with
  | ODummy => Ok ODummy
  | OArray ks vs e full => if e <? p then Ub OobWrite else Ok (OArray ks vs (sub64 e 1) full)
  | OUmap nb els full =>
      match um_chain nb els p with
      | [] => Ub NullDeref
      | (k, _) :: _ => Ok (OUmap nb (List.filter (fun e => negb (fst e =? k)) els) full)
      end
  end.
(** clear(): 39, 111-114 (m_elements is not reset), 233-235 *)
Definition ov_clear (o : overflow) : res overflow :=
  match o with
  | ODummy => Ok ODummy
  | OArray ks vs e full =>
      ks ← b_clear pf (KPlain kb) ks; vs ← b_clear pf (KPlain vb) vs; Ok (OArray ks vs e full)
  | OUmap nb _ full => Ok (OUmap nb [] full)
  end.
End overflow.
