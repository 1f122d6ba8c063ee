(** Programs that use a map or a set and check what it returns: the test functions of test/base.hpp and test/separate.cpp.
    This file contains no proofs. *)
From Verif Require Export Spec Base.

(** A program issues calls of type O that return results of type X, runs loops over all elements, and checks conditions
    (ASSERT_* of googletest: leave the test function on failure). *)
Inductive prog (O X : Type) :=
| Pass
| Call (o : O) (k : X -> prog O X)
| Iter (back : bool) (k : list (N * N) -> prog O X)   (* the pairs seen by a loop from begin() to end(), or from rbegin_nav() to rend_nav() *)
| Assert (b : bool) (p : prog O X).
Arguments Pass {O X}. Arguments Call {O X}. Arguments Iter {O X}. Arguments Assert {O X}.

(** Execution on a container: its state at the end and whether all checks succeeded. *)
Section play.
Context {O X T : Type} (step : T -> O -> res (T * X)) (fwd bwd : T -> res (list (N * N))).
Fixpoint play (t : T) (p : prog O X) : res (T * bool) :=
  match p with
  | Pass => Ok (t, true)
  | Call o k => r ← step t o; let '(t, x) := (r : T * X) in play t (k x)
  | Iter back k => l ← (if back then bwd t else fwd t); play t (k l)
  | Assert b p => if b then play t p else Ok (t, false)
  end.
End play.

(** for(size_t i = 0; i < n; ++i) { body } rest *)
Definition upto (n : N) : list N := map N.of_nat (seq 0 (N.to_nat n)).
Definition each {A O X : Type} (l : list A) (body : A -> prog O X -> prog O X) (rest : prog O X) : prog O X := fold_right body rest l.

#[global] Instance out_eq_dec : EqDecision out.
Proof. solve_decision. Defined.
#[global] Instance sout_eq_dec : EqDecision sout.
Proof. solve_decision. Defined.

Notation mprog := (prog op out).
(** a call whose result is not looked at, and ASSERT_EQ(call, x) *)
Definition act (o : op) (p : mprog) : mprog := Call o (fun _ => p).
Definition expect (o : op) (x : out) (p : mprog) : mprog := Call o (fun r => Assert (bool_decide (r = x)) p).
(** ASSERT_EQ(map[k], map[k]) *)
Definition expect_same (k : N) (p : mprog) : mprog :=
  Call (OpRead k) (fun a => Call (OpRead k) (fun b => Assert (bool_decide (a = b)) p)).

(** test/base.hpp:21-49 test_map_outlier; [kw] is map.key_width(), map.max_key() is 2^kw - 1 *)
Definition test_map_outlier (kw : N) : mprog :=
  let max_key := 2^kw - 1 in
  each (upto kw) (fun i p => act (OpWrite (2^i) i) (expect OpSize (OutNum (i + 1)) p)) (
  each (upto kw) (fun i p => act (OpWrite (2^i) i) (expect OpSize (OutNum kw) p)) (
  act (OpWrite max_key kw) (
  each (upto kw) (fun i p => expect (OpRead (2^i)) (OutNum i) p) (
  expect (OpRead max_key) (OutNum kw) (
  expect (OpErase max_key) (OutNum 1) (
  each (upto kw) (fun i p => expect (OpErase (2^i)) (OutNum 1) p) (
  expect OpSize (OutNum 0) (
  each (upto kw) (fun i p => act (OpWrite (2^i) i) (expect OpSize (OutNum (i + 1)) p)) (
  each (upto kw) (fun i p => expect (OpRead (2^i)) (OutNum i) p) Pass))))))))).

(** test/base.hpp:51-81 test_map_iterator; [vw]: map.max_value() is 2^vw - 1.  The DDCHECK of line 55 is about the types only. *)
Definition test_map_iterator (kw vw : N) : mprog :=
  let max_key := N.min (2^8 - 1) (2^kw - 1) in
  let max_value := 2^vw - 1 in
  let right e := snd e =? sub64 max_key (fst e) mod max_value in
  each (upto max_key) (fun i p => act (OpWrite i ((max_key - i) mod max_value)) p) (
  each (upto max_key) (fun i p => expect (OpRead i) (OutNum ((max_key - i) mod max_value)) (expect_same i p)) (
  act OpShrink (
  Iter false (fun l => each l (fun e p => Assert (right e) p) (
  Iter false (fun l => each l (fun e p => Assert (right e) p) (
  Iter true (fun l => each l (fun e p => Assert (right e) p) (
  Call OpSize (fun size => expect OpSize size (
  each (upto max_key) (fun i p => expect (OpErase i) (OutNum 1) p) (
  expect OpSize (OutNum 0) Pass)))))))))))).

(** test/base.hpp:83-106 test_map_id *)
Definition test_map_id (kw vw : N) : mprog :=
  let max_key := N.min (2^16 - 1) (2^kw - 1) in
  let max_value := 2^vw - 1 in
  each (upto max_key) (fun i p => act (OpWrite i (i mod max_value)) p) (
  each (upto max_key) (fun i p => expect (OpRead i) (OutNum (i mod max_value)) (expect_same i p)) (
  act OpShrink (
  Call OpSize (fun size =>
  each (upto max_key) (fun i p => act (OpWrite i (i mod max_value)) p) (
  expect OpSize size (
  each (upto max_key) (fun i p => expect (OpErase i) (OutNum 1) p) (
  expect OpSize (OutNum 0) Pass))))))).

(** test/base.hpp:107-130 test_map_reverse *)
Definition test_map_reverse (kw vw : N) : mprog :=
  let max_key := N.min (2^16 - 1) (2^kw - 1) in
  let max_value := 2^vw - 1 in
  each (upto max_key) (fun i p => act (OpWrite (max_key - i) (i mod max_value)) p) (
  each (upto max_key) (fun i p => expect (OpRead (max_key - i)) (OutNum (i mod max_value)) p) (
  Call OpSize (fun size =>
  each (upto max_key) (fun i p => act (OpWrite (max_key - i) (i mod max_value)) p) (
  expect OpSize size (
  each (upto max_key) (fun i p => expect (OpErase (max_key - i)) (OutNum 1) p) (
  expect OpSize (OutNum 0) Pass)))))).

(** The tests below draw keys and values with random_int (base.hpp:14-17): here the numbers drawn are arguments, in the order
    in which they are drawn.  The std::map rev is a gmap; a loop over it visits its pairs in some order. *)
Definition count64 (rev : gmap N N) : N := N.of_nat (size rev) mod 2^64.    (* std::map::size *)
(** auto it = map.find(k); ASSERT_NE(it, map.end()); ASSERT_EQ(it->second, v) *)
Definition expect_value (k v : N) (p : mprog) : mprog :=
  Call (OpFind k) (fun r => match r with OutEntry (Some (_, x)) => Assert (x =? v) p | _ => Assert false p end).
Definition expect_all (rev : gmap N N) (p : mprog) : mprog := each (map_to_list rev) (fun e p => expect_value (fst e) (snd e) p) p.

(** One round of base.hpp:178-210: pairs to insert, keys to erase, keys to look up. *)
Record round := Round { r_ins : list (N * N); r_del : list N; r_look : list N }.
(** Numbers that random_int can draw: keys up to map.max_key() and values up to map.max_value(). *)
Definition pair_ok (kw vw : N) (e : N * N) : Prop := fst e < 2^kw /\ snd e < 2^vw.
Definition round_ok (kw vw : N) (r : round) : Prop :=
  Forall (pair_ok kw vw) (r_ins r) /\ Forall (fun k => k < 2^kw) (r_del r) /\ Forall (fun k => k < 2^kw) (r_look r).
(** 182-188, from index [i] on; [k] continues with rev *)
Fixpoint random_insert (i : nat) (l : list (N * N)) (rev : gmap N N) (k : gmap N N -> mprog) : mprog :=
  match l with
  | [] => k rev
  | (key, val) :: l =>
      let rev := <[key := val]> rev in
      act (OpWrite key val) (expect OpSize (OutNum (count64 rev)) (
        let next := random_insert (S i) l rev k in
        if (i mod 13 =? 0)%nat then act OpShrink next else next))
  end.
(** 189-194 *)
Fixpoint random_erase (l : list N) (rev : gmap N N) (k : gmap N N -> mprog) : mprog :=
  match l with
  | [] => k rev
  | key :: l =>
      let removed := match rev !! key with Some _ => 1 | None => 0 end in
      let rev := delete key rev in
      expect (OpErase key) (OutNum removed) (expect OpSize (OutNum (count64 rev)) (random_erase l rev k))
  end.
(** 200-209 *)
Definition random_look (rev : gmap N N) (l : list N) (p : mprog) : mprog :=
  each l (fun key p =>
    match rev !! key with
    | None => expect (OpFind key) (OutEntry None) p
    | Some v =>
        Call (OpFind key) (fun r => match r with
          | OutEntry (Some (k, _)) => Assert (k =? key) (
              Call (OpFind key) (fun r => match r with OutEntry (Some (_, x)) => Assert (x =? v) p | _ => Assert false p end))
          | _ => Assert false p
          end)
    end) p.
(** 172-211 test_map_random *)
Definition test_map_random (rounds : list round) : mprog :=
  each rounds (fun r p =>
    act OpClear (random_insert 0 (r_ins r) ∅ (fun rev => random_erase (r_del r) rev (fun rev => expect_all rev (random_look rev (r_look r) p))))) Pass.
(** test/group.cpp:5-40 TEST(map_group, out): the same without erasures *)
Definition test_map_group_out (rounds : list (list (N * N) * list N)) : mprog :=
  each rounds (fun r p => act OpClear (random_insert 0 (fst r) ∅ (fun rev => expect_all rev (random_look rev (snd r) p)))) Pass.

(** base.hpp:213-230 test_map_random_large; separate.cpp:62-77 TEST(separate_chaining_map, step) with the values 0, 1, ... *)
Fixpoint large_insert (l : list (N * N)) (rev : gmap N N) (k : gmap N N -> mprog) : mprog :=
  match l with
  | [] => k rev
  | (key, val) :: l =>
      let rev := <[key := val]> rev in
      act (OpWrite key val) (expect OpSize (OutNum (count64 rev)) (large_insert l rev k))
  end.
Definition test_map_random_large (l : list (N * N)) : mprog := large_insert l ∅ (fun rev => expect_all rev Pass).
Definition test_map_step (keys : list N) : mprog := test_map_random_large (zip keys (upto (N.of_nat (length keys)))).

(** test/separate.cpp:80-106 test_set_random: per round the keys to insert and those to look up.  set[key] inserts. *)
Notation sprog := (prog sop sout).
Definition sexpect (o : sop) (f : sout -> bool) (p : sprog) : sprog := Call o (fun r => Assert (f r) p).
Definition is_end (r : sout) : bool := bool_decide (r = SoKey None).
Fixpoint set_insert (l : list N) (rev : gset N) (k : gset N -> sprog) : sprog :=
  match l with
  | [] => k rev
  | key :: l =>
      let rev := {[key]} ∪ rev in
      Call (SInsert key) (fun _ => sexpect SSize (fun r => bool_decide (r = SoNum (N.of_nat (size rev) mod 2^64))) (set_insert l rev k))
  end.
Definition test_set_random (rounds : list (list N * list N)) : sprog :=
  each rounds (fun r p =>
    Call SClear (fun _ => set_insert (fst r) ∅ (fun rev =>
      each (elements rev) (fun key p => sexpect (SFind key) (fun x => negb (is_end x)) p) (
      each (snd r) (fun key p => sexpect (SFind key) (fun x => if decide (key ∈ rev) then negb (is_end x) else is_end x) p) p)))) Pass.

(** test/base.hpp:132-170 test_map_random_serialize, on a container with operations [step], forward iteration [fwd], serialize [ser],
    deserialize [deser], a default-constructed container [fresh] and the destructor [free].  One element of a round: key, value and the
    key passed to erase (not used if the index is a multiple of 13).  The DDCHECKs of 152-158 (debug builds only) are left out.
    ASSERT_NE(it, map.end()) on an iterator of map2 (165-166) is taken to compare with the end of map2. *)
Section serialize_test.
Context {T D : Type} (step : T -> op -> res (T * out)) (fwd : T -> res (list (N * N))).
Context (ser : T -> res D) (deser : T -> D -> res T) (fresh : T) (free : T -> res T).
(** 139-145 *)
Fixpoint serial_ops (i : nat) (l : list (N * N * N)) : list op :=
  match l with
  | [] => []
  | (key, val, gone) :: l => OpWrite key val :: (if (i mod 13 =? 0)%nat then [] else [OpErase gone]) ++ serial_ops (S i) l
  end.
Definition do_all (t : T) (ops : list op) : res T := rfold (fun t o => r ← step t o; Ok (fst (r : T * out))) ops t.
(** 160-164, 165-169: auto it = find(el.first); it is not the end; it->second == el.second *)
Fixpoint look_up (t : T) (l : list (N * N)) : res (T * bool) :=
  match l with
  | [] => Ok (t, true)
  | (k, v) :: l =>
      r ← step t (OpFind k);
      let '(t, x) := (r : T * out) in
      match x with OutEntry (Some (_, w)) => if w =? v then look_up t l else Ok (t, false) | _ => Ok (t, false) end
  end.
(** 138-169: one round *)
Definition serial_round (t : T) (l : list (N * N * N)) : res (T * bool) :=
  t ← do_all t (OpClear :: serial_ops 0 l);
  d ← ser t;
  t2 ← deser fresh d;
  l2 ← fwd t2;
  r ← look_up t l2;
  let '(t, b) := (r : T * bool) in
  if b then
    l1 ← fwd t;
    r ← look_up t2 l1;
    let '(t2, b) := (r : T * bool) in
    _ ← free t2;
    Ok (t, b)
  else Ok (t, false).
Fixpoint test_map_serialize (t : T) (rounds : list (list (N * N * N))) : res (T * bool) :=
  match rounds with
  | [] => Ok (t, true)
  | l :: rounds =>
      r ← serial_round t l;
      let '(t, b) := (r : T * bool) in
      if b then test_map_serialize t rounds else Ok (t, false)
  end.
End serialize_test.
Definition triple_ok (kw vw : N) (e : N * N * N) : Prop := fst (fst e) < 2^kw /\ snd (fst e) < 2^vw /\ snd e < 2^kw.
