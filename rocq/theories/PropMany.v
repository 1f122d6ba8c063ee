(** Property theorems about programs over several tables that share a stream (C112). *)
From Verif Require Import ManyModel.
From Verif Require Export PropSerial.

(** ** Specification: variables are finite maps with a key width and a value width, the stream is a queue of such maps. *)
Definition var : Type := (N * N) * gmap N N.
Definition vars_step (e : list var) (q : list var) (p : stmt) : list var * list var * out :=
  match p with
  | SOp i o => match e !! i with
               | Some (w, m) => (<[i := (w, fst (spec_step m o))]> e, q, snd (spec_step m o))
               | None => (e, q, OutUnit)
               end
  | SSwap i j => match e !! i, e !! j with
                 | Some x, Some y => (<[j := x]> (<[i := y]> e), q, OutUnit)
                 | _, _ => (e, q, OutUnit)
                 end
  | SSave i => match e !! i with Some x => (e, q ++ [x], OutUnit) | None => (e, q, OutUnit) end
  | SLoad i => match q with x :: q => (<[i := x]> e, q, OutUnit) | [] => (e, q, OutUnit) end
  end.
(** Preconditions: the variables exist, keys and values fit in the widths the variable has at that time, and something is left
    in the stream when a table is read from it. *)
Definition stmt_ok (bmax : N -> N) (e q : list var) (p : stmt) : Prop :=
  match p with
  | SOp i o => exists kw vw m, e !! i = Some ((kw, vw), m) /\ valid_op kw vw 1 (bmax kw) o
  | SSwap i j => is_Some (e !! i) /\ is_Some (e !! j)
  | SSave i => is_Some (e !! i)
  | SLoad i => is_Some (e !! i) /\ q <> []
  end.
Fixpoint vars_run (e q : list var) (l : list stmt) : list var * list var * list out :=
  match l with
  | [] => (e, q, [])
  | p :: l => let '(e, q, x) := vars_step e q p in let '(e, q, xs) := vars_run e q l in (e, q, x :: xs)
  end.
Fixpoint stmts_ok (bmax : N -> N) (e q : list var) (l : list stmt) : Prop :=
  match l with
  | [] => True
  | p :: l => stmt_ok bmax e q p /\ let '(e, q, _) := vars_step e q p in stmts_ok bmax e q l
  end.

Section many.
Context (pf : platform) (c : cfg) (fuel : nat).
Hypothesis CL : class_ok pf c.
Hypothesis Hd : c_ov c = OvDummy.
Hypothesis Hv : c_val c <> KNull.
Hypothesis Hf : (64 <= fuel)%nat.
Definition is_var (t : table) (x : var) : Prop := alive pf c (fst (fst x)) (snd (fst x)) t (snd x).
(** the stream holds the tables of the queue *)
Inductive holds : stream -> list var -> Prop :=
| holds_nil : holds [] []
| holds_cons t x d s q : is_var t x -> serialize pf c t = Ok d -> holds s q -> holds (d ++ s) (x :: q).

Lemma holds_snoc s q t x d : holds s q -> is_var t x -> serialize pf c t = Ok d -> holds (s ++ d) (q ++ [x]).
Proof.
  intros H Ht E. induction H as [|t0 x0 d0 s q H0 E0 H IH]; cbn [app].
  - rewrite <-(app_nil_r d). apply (holds_cons t); [done|done|constructor].
  - rewrite <-app_assoc. by apply (holds_cons t0).
Qed.
Lemma var_ov t x : is_var t x -> ov_size (t_ov t) = 0.
Proof.
  intros Ha. destruct (alive_rep pf c CL _ _ _ _ Ha) as [_ [[(_ & _ & _ & _ & Hz & _) _]|(sl & ess & ovl & H & Hm)]]; [by apply (ov_zero_size _ _ _ Hz)|].
  destruct (dummy_nil _ _ _ _ _ _ _ _ _ _ _ H Hd) as [-> _]. done.
Qed.
Lemma var_op t kw vw m o : is_var t ((kw, vw), m) -> valid_op kw vw 1 (bits_max c kw) o ->
  exists t', run_op pf c fuel t o = Ok (t', snd (spec_step m o)) /\ is_var t' ((kw, vw), fst (spec_step m o)).
Proof.
  unfold is_var. cbn [fst snd]. intros Ha Ho. assert (Hops : valid_ops kw vw 1 (bits_max c kw) [o]) by (apply List.Forall_cons; [done|apply List.Forall_nil]).
  destruct (alive_rep pf c CL _ _ _ _ Ha) as [[P _] Hr].
  assert (Hnv : forall v, v < 2^vw -> nv c vw v = v) by (intros v Hlt; eapply cfg_values; [apply P|done|done]).
  destruct (run_rep pf c kw vw 1 (bits_max c kw) False fuel (params_ok _ _ _ _ P) Hf [o] _ _ Hr (params_init _ _ _ _ P) Hv Hnv Hops (noarr_ops _ _ _ _ P [o])) as (t1 & E & _).
  pose proof (al_map _ _ _ _ _ _ _ _ _ _ Ha Hf Hv Hops E) as Ha'.
  cbn [run_ops] in E. destruct (run_op pf c fuel t o) as [[t2 x]| | |]; cbn [mbind res_bind] in E; [|done..]. injection E as <- E.
  cbn [spec_run] in E, Ha'. destruct (spec_step m o) as [m1 y]. cbn [fst snd] in *. injection E as <-. by exists t2.
Qed.
Lemma step_fact ts s e q p : Forall2 is_var ts e -> holds s q -> stmt_ok (bits_max c) e q p ->
  exists ts' s', stmt_step pf c fuel ts s p = Ok (ts', s', snd (vars_step e q p))
    /\ Forall2 is_var ts' (fst (fst (vars_step e q p))) /\ holds s' (snd (fst (vars_step e q p))).
Proof.
  intros HF Hs Hok. destruct p as [i o|i j|i|i]; cbn [stmt_ok] in Hok; cbn [stmt_step vars_step].
  - destruct Hok as (kw & vw & m & Ei & Ho). destruct (Forall2_lookup_r _ _ _ _ _ HF Ei) as (t & Et & Ht).
    destruct (var_op _ _ _ _ _ Ht Ho) as (t' & E & Ht'). rewrite Et, Ei. cbn [of_option mbind res_bind]. rewrite E. cbn [mbind res_bind fst snd].
    do 2 eexists. split; [done|]. split; [by apply Forall2_insert|done].
  - destruct Hok as [[x Ex] [y Ey]]. destruct (Forall2_lookup_r _ _ _ _ _ HF Ex) as (tx & Etx & Htx).
    destruct (Forall2_lookup_r _ _ _ _ _ HF Ey) as (ty & Ety & Hty). rewrite Etx, Ety, Ex, Ey. cbn [of_option mbind res_bind fst snd].
    do 2 eexists. split; [done|]. split; [by apply Forall2_insert; [apply Forall2_insert|]|done].
  - destruct Hok as [x Ex]. destruct (Forall2_lookup_r _ _ _ _ _ HF Ex) as (t & Et & Ht). rewrite Et, Ex. cbn [of_option mbind res_bind].
    destruct (round_trip pf c CL _ _ _ _ _ _ _ _ Ht (var_ov _ _ Ht) Ht) as (d & E & _). rewrite E. cbn [mbind res_bind fst snd].
    do 2 eexists. split; [done|]. split; [done|]. by eapply holds_snoc.
  - destruct Hok as [[x0 Ex0] Hq]. destruct (Forall2_lookup_r _ _ _ _ _ HF Ex0) as (t0 & Et0 & Ht0). rewrite Et0. cbn [of_option mbind res_bind].
    destruct Hs as [|t x d s q Ht E Hs]; [done|].
    destruct (round_trip pf c CL _ _ _ _ _ _ _ _ Ht (var_ov _ _ Ht) Ht0) as (d' & E' & D). rewrite E in E'. injection E' as <-.
    destruct (D fuel s) as (t' & E' & Ht' & _). rewrite E'. cbn [mbind res_bind fst snd].
    do 2 eexists. split; [done|]. split; [by apply Forall2_insert|done].
Qed.
Lemma run_fact l ts s e q : Forall2 is_var ts e -> holds s q -> stmts_ok (bits_max c) e q l ->
  exists ts' s', stmts_run pf c fuel ts s l = Ok (ts', s', snd (vars_run e q l))
    /\ Forall2 is_var ts' (fst (fst (vars_run e q l))) /\ holds s' (snd (fst (vars_run e q l))).
Proof.
  revert ts s e q. induction l as [|p l IH]; intros ts s e q HF Hs Hok; [cbn; eauto|]. cbn [stmts_ok] in Hok. destruct Hok as [Hp Hl].
  destruct (step_fact ts s e q p HF Hs Hp) as (ts1 & s1 & E1 & HF1 & Hs1). cbn [stmts_run vars_run]. rewrite E1. cbn [mbind res_bind].
  destruct (vars_step e q p) as [[e1 q1] x]. cbn [fst snd] in *. destruct (IH _ _ _ _ HF1 Hs1 Hl) as (ts2 & s2 & E2 & HF2 & Hs2).
  rewrite E2. cbn [mbind res_bind]. destruct (vars_run e1 q1 l) as [[e2 q2] xs]. cbn [fst snd] in *. eauto.
Qed.
End many.

(** C112: programs over any number of maps of one type, each constructed with its own widths, that call them, swap them, write
    them to a stream and read them from it in order, return what the same program returns for finite maps and a queue.  Variables
    take over the widths of the map they are swapped with or that they read. *)
Theorem C112_many_tables : forall pf c fuel ws l,
  class_ok pf c -> c_ov c = OvDummy -> c_val c <> KNull -> (64 <= fuel)%nat ->
  Forall (fun w => params pf c (fst w) (snd w) /\ snd w < 2^8) ws ->
  let e0 := map (fun w => (w, ∅)) ws in
  stmts_ok (bits_max c) e0 [] l ->
  exists ts s, stmts_run pf c fuel (map (fun w => new_table pf c (fst w) (snd w)) ws) [] l = Ok (ts, s, snd (vars_run e0 [] l))
    /\ Forall2 (fun t x => alive pf c (fst (fst x)) (snd (fst x)) t (snd x)) ts (fst (fst (vars_run e0 [] l)))
    /\ (snd (fst (vars_run e0 [] l)) = [] -> s = []).
Proof.
  intros pf c fuel ws l CL Hd Hv Hf Hw e0 Hok.
  destruct (run_fact pf c fuel CL Hd Hv Hf l (map (fun w => new_table pf c (fst w) (snd w)) ws) [] e0 []) as (ts & s & E & HF & Hs).
  - unfold e0. clear -Hw. induction Hw as [|w ws [P Hvb] _ IH]; cbn [map]; constructor; [by constructor|done].
  - constructor.
  - done.
  - exists ts, s. split; [done|]. split; [done|]. intros Hq. rewrite Hq in Hs. by inversion Hs.
Qed.
Print Assumptions C112_many_tables.

(** Several tables written one after another are restored in the same order, whatever the tables that read them held. *)
Theorem C112_stream_order : forall pf c fuel (src dst : list (table * var)) rest,
  class_ok pf c -> c_ov c = OvDummy -> length dst = length src ->
  Forall (fun p => alive pf c (fst (fst (snd p))) (snd (fst (snd p))) (fst p) (snd (snd p))) (src ++ dst) ->
  exists d ts, rmap (fun p => serialize pf c (fst p)) src = Ok d
    /\ (fix loads (ts : list table) (s : stream) : res (list table * stream) :=
          match ts with
          | [] => Ok ([], s)
          | t :: ts => r ← deserialize pf c fuel t s; q ← loads ts (snd r); Ok (fst r :: fst q, snd q)
          end) (map fst dst) (concat d ++ rest) = Ok (ts, rest)
    /\ Forall2 (fun t x => alive pf c (fst (fst x)) (snd (fst x)) t (snd x)) ts (map snd src).
Proof.
  intros pf c fuel src dst rest CL Hd Hlen Hall. apply Forall_app in Hall as [Hs Ht]. revert dst Hlen Ht.
  induction Hs as [|[t x] src Hx Hs IH]; intros [|[t0 x0] dst] Hlen Ht; cbn [length] in Hlen; try lia.
  - exists [], []. repeat split. constructor.
  - apply Forall_cons in Ht as [H0 Ht]. cbn [fst snd] in Hx, H0. destruct (IH dst ltac:(lia) Ht) as (d & ts & E & D & HF).
    destruct (round_trip pf c CL _ _ _ _ _ _ _ _ Hx (var_ov pf c CL Hd _ _ Hx) H0) as (d0 & E0 & D0).
    destruct (D0 fuel (concat d ++ rest)) as (t' & E1 & Ha & _).
    exists (d0 :: d), (t' :: ts). cbn [rmap fst]. rewrite E0. cbn [mbind res_bind]. rewrite E. split; [done|].
    cbn [map fst concat]. rewrite <-app_assoc, E1. cbn [mbind res_bind fst snd]. rewrite D. split; [done|]. cbn [map snd]. constructor; [done|done].
Qed.
Print Assumptions C112_stream_order.

(** Two maps of 20 and 12 bit keys; the first is written, both are swapped, the second is written, and both are read again
    into the other variable. *)
Definition ex_many : list stmt :=
  [SOp 0 (OpInsert 1000000 500); SOp 1 (OpWrite 5 3); SSave 0; SSwap 0 1; SSave 0; SOp 0 (OpErase 5); SLoad 0; SLoad 1;
   SOp 0 (OpFind 1000000); SOp 1 (OpFind 5); SOp 1 OpSize].
Example C112_case :
  class_ok lax_pf ex_var /\ c_ov ex_var = OvDummy /\ c_val ex_var <> KNull
  /\ Forall (fun w => params lax_pf ex_var (fst w) (snd w) /\ snd w < 2^8) [(20, 9); (12, 3)]
  /\ stmts_ok (bits_max ex_var) [((20, 9), ∅); ((12, 3), ∅)] [] ex_many
  /\ match stmts_run lax_pf ex_var 64 (map (fun w => new_table lax_pf ex_var (fst w) (snd w)) [(20, 9); (12, 3)]) [] ex_many with
     | Ok (ts, s, xs) => map t_kw ts = [20; 12] /\ s = []
         /\ drop 8 xs = [OutEntry (Some (1000000, 500)); OutEntry (Some (5, 3)); OutNum 1]
     | _ => False
     end.
Proof.
  split; [by split|]. split; [done|]. split; [done|]. split.
  { apply List.Forall_cons; [split; [exact ex_var_ok|done]|]. apply List.Forall_cons; [split; [cbn [fst snd]; params_solve|done]|apply List.Forall_nil]. }
  split.
  { cbn. repeat split; try (by eexists); try done; do 3 eexists; (split; [reflexivity|vm_compute; auto]). }
  vm_compute. auto.
Qed.
