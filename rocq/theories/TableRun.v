(** Histories of separate_chaining_table: each call of Spec.op as the user code would issue it. *)
From Verif Require Export Spec TableModel.

Section run.
Context (pf : platform) (c : cfg) (fuel : nat).

(** Reading through a returned navigator: key() and value(), or end(). *)
Definition run_op (t : table) (o : op) : res (table * out) :=
  match o with
  | OpFind k => x ← TableModel.find pf c t k; e ← iter_at pf c t x; Ok (t, OutEntry e)
  | OpCount k => n ← count pf c t k; Ok (t, OutNum n)
  | OpInsert k v =>
      r ← find_or_insert pf c fuel t k v;
      let '(t, x) := (r : table * nav) in
      e ← iter_at pf c t x; Ok (t, OutEntry e)
  | OpRead k =>
      r ← index pf c fuel t k;
      let '(t, x) := (r : table * nav) in
      v ← nav_value pf c t x; Ok (t, OutNum v)
  | OpWrite k v =>
      r ← index pf c fuel t k;
      let '(t, x) := (r : table * nav) in
      t ← write_value pf c t x v; Ok (t, OutUnit)
  | OpErase k =>
      r ← erase pf c t k;
      let '(t, n) := (r : table * N) in Ok (t, OutNum n)
  | OpEraseIt k =>
      x ← TableModel.find pf c t k;
      r ← erase_at pf c t x;
      let '(t, n) := (r : table * N) in Ok (t, OutNum n)
  | OpSize => Ok (t, OutNum (TableModel.size t))
  | OpEmpty => Ok (t, OutBool (TableModel.empty t))
  | OpReserve n => t ← reserve pf c fuel t n; Ok (t, OutUnit)
  | OpShrink => t ← shrink_to_fit pf c t; Ok (t, OutUnit)
  | OpClear => t ← clear pf c t; Ok (t, OutUnit)
  end.
Fixpoint run_ops (t : table) (ops : list op) : res (table * list out) :=
  match ops with
  | [] => Ok (t, [])
  | o :: ops' =>
      r ← run_op t o;
      let '(t, x) := (r : table * out) in
      rs ← run_ops t ops';
      let '(t, xs) := (rs : table * list out) in
      Ok (t, x :: xs)
  end.

(** The set: insertion stores no value, handles are only asked for their key. *)
Definition key_at (t : table) (x : nav) : res (option N) :=
  i ← nav_invalid pf t x;
  if (i : bool) then Ok None else k ← nav_key pf c t x; Ok (Some k).
Definition run_sop (t : table) (o : sop) : res (table * sout) :=
  match o with
  | SFind k => x ← TableModel.find pf c t k; e ← key_at t x; Ok (t, SoKey e)
  | SCount k => n ← count pf c t k; Ok (t, SoNum n)
  | SInsert k =>
      r ← find_or_insert pf c fuel t k 0;
      let '(t, x) := (r : table * nav) in
      e ← key_at t x; Ok (t, SoKey e)
  | SErase k =>
      r ← erase pf c t k;
      let '(t, n) := (r : table * N) in Ok (t, SoNum n)
  | SSize => Ok (t, SoNum (TableModel.size t))
  | SEmpty => Ok (t, SoBool (TableModel.empty t))
  | SReserve n => t ← reserve pf c fuel t n; Ok (t, SoUnit)
  | SShrink => t ← shrink_to_fit pf c t; Ok (t, SoUnit)
  | SClear => t ← clear pf c t; Ok (t, SoUnit)
  end.
Fixpoint run_sops (t : table) (ops : list sop) : res (table * list sout) :=
  match ops with
  | [] => Ok (t, [])
  | o :: ops' =>
      r ← run_sop t o;
      let '(t, x) := (r : table * sout) in
      rs ← run_sops t ops';
      let '(t, xs) := (rs : table * list sout) in
      Ok (t, x :: xs)
  end.
End run.
