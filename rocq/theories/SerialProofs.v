(** Serialization of separate_chaining_table: what is written is read back. *)
From Verif Require Export SerialModel TableReach.

Lemma bits_cell_nbits w x : x < 2^N.of_nat w -> bits_cell (nbits w x) = Some x.
Proof. intros H. unfold bits_cell, nbits. by rewrite det_map_Some, bits_val_bits_of, N.mod_small. Qed.
Lemma read_var_app w x s old : length old = w -> x < 2^N.of_nat w -> read_var (nbits w x ++ s) old = (Some x, s).
Proof. intros Hl Hx. unfold read_var. rewrite st_read_app by (by rewrite nbits_length). by rewrite bits_cell_nbits. Qed.

Lemma sizes_length {A} (f : A -> N) l : length (concat (map (fun x => nbits 8 (f x)) l)) = (8 * length l)%nat.
Proof. induction l as [|a l IH]; [done|]. cbn [map concat length]. rewrite app_length, nbits_length, IH. lia. Qed.
Lemma de_sizes_spec {A} (f : A -> N) l : Forall (fun x => f x < 2^8) l ->
  de_sizes (length l) (concat (map (fun x => nbits 8 (f x)) l)) = Ok (map f l).
Proof.
  induction 1 as [|a l Ha _ IH]; [done|]. cbn [length de_sizes map concat].
  rewrite take_app_alt, drop_app_alt by (by rewrite nbits_length).
  rewrite bits_cell_nbits by done. cbn [used of_option mbind res_bind]. by rewrite IH.
Qed.

Definition class_ok (pf : platform) (c : cfg) : Prop :=
  (match c_key c with KClass _ => loose_free pf = true | _ => True end)
  /\ (match c_val c with KClass _ => loose_free pf = true | _ => True end).

Section serial.
Context (pf : platform) (c : cfg) (kw vw bmin bmax : N) (strict : Prop).
Notation srepr := (slot_repr pf c kw vw strict).
Notation srepr' := (slot_repr pf c kw vw False).
Notation tinv := (tinv pf c kw vw bmin bmax strict).
Notation tinv' := (TableInv.tinv pf c kw vw bmin bmax False).
Notation tzero := (tzero pf c kw vw).
Notation fair := (ov_side pf c kw).
Hypothesis OK : table_ok0 pf c kw vw bmin bmax.
Hypothesis CL : class_ok pf c.

Implicit Types (t : table) (s : slot) (st : stream).

(** One bucket; [t] and [t'] only have to agree on the widths. *)
Lemma ser_slot_spec t b s es : bmin <= b <= bmax -> qwidth c t = qw c kw b -> vwidth t = N.to_nat vw -> srepr b s es ->
  exists d, ser_slot pf c t s = Ok d /\
    forall t', qwidth c t' = qw c kw b -> vwidth t' = N.to_nat vw ->
    forall sl sizes st, exists s', srepr' b s' es /\
      de_slots pf c t' (empty_slot :: sl) (s_size s :: sizes) (d ++ st) =
      (s' :: fst (de_slots pf c t' sl sizes st), snd (de_slots pf c t' sl sizes st)).
Proof.
  intros Hb Hq Hv Hs. unfold ser_slot. pose proof Hs as (Hsz & Hm & Hes & Hcap & Harb & _).
  destruct (N.eqb_spec (s_size s) 0) as [E|E].
  - exists []. split; [done|]. intros t' Hq' Hv' sl sizes st. exists empty_slot.
    assert (es = []) as -> by (destruct es; [done|cbn in Hsz; lia]).
    split; [apply slot_repr_empty|]. cbn [de_slots app]. rewrite (proj2 (N.eqb_eq _ _)) by done.
    rewrite E. by destruct (de_slots pf c t' sl sizes st).
  - assert (Hne : es <> []) by (intros ->; cbn in Hsz; lia).
    destruct (slot_repr_nonnil pf c kw vw strict b s es Hne Hs) as [Hks Hvs].
    destruct (ok_kind pf c kw vw bmin bmax OK b Hb) as [Hkd _].
    destruct CL as [Ck Cv].
    destruct (b_serialize_spec _ _ _ _ _ _ Hkd Hks Ck) as (d1 & E1 & D1).
    destruct (b_serialize_spec _ _ _ _ _ _ (ok_val pf c kw vw bmin bmax OK) Hvs Cv) as (d2 & E2 & D2).
    rewrite map_length in E1, D1. rewrite map_length in E2, D2.
    rewrite Hq, Hv, Hsz, Nat2N.id, E1. cbn [mbind res_bind]. rewrite E2. cbn [mbind res_bind].
    exists (d1 ++ d2). split; [done|]. intros t' Hq' Hv' sl sizes st.
    destruct (D1 (d2 ++ st)) as (b1 & E1' & R1). destruct (D2 st) as (b2 & E2' & R2).
    exists (Slot b1 b2 (s_size s) 0). split.
    + unfold slot_repr. cbn [s_size s_cap s_keys s_vals]. split; [done|]. split; [done|]. split.
      * destruct es as [|e es']; [done|]. change (N.to_nat 0) with 0%nat. rewrite Nat.max_0_r. done.
      * split; [lia|]. split; [done|]. done.
    + cbn [de_slots]. rewrite Hsz, <-Hsz. rewrite (proj2 (N.eqb_neq _ _)) by done.
      rewrite Hq', Hv', Hsz, Nat2N.id, <-app_assoc, E1', E2'.
      by destruct (de_slots pf c t' sl sizes st).
Qed.

Lemma ser_slots_spec t b : bmin <= b <= bmax -> qwidth c t = qw c kw b -> vwidth t = N.to_nat vw ->
  forall sl ess, Forall2 (srepr b) sl ess ->
  exists ds, rmap (ser_slot pf c t) sl = Ok ds /\
    forall t', qwidth c t' = qw c kw b -> vwidth t' = N.to_nat vw ->
    forall st, exists sl', Forall2 (srepr' b) sl' ess /\
      de_slots pf c t' (replicate (length sl) empty_slot) (map s_size sl) (concat ds ++ st) = (sl', st).
Proof.
  intros Hb Hq Hv sl ess. revert ess. induction sl as [|s sl IH]; intros ess HF.
  - apply Forall2_nil_inv_l in HF as ->. exists []. split; [done|]. intros t' _ _ st. exists []. split; [constructor|done].
  - apply Forall2_cons_inv_l in HF as (es & ess' & Hs & HF & ->).
    destruct (ser_slot_spec t b s es Hb Hq Hv Hs) as (d & Ed & Dd). destruct (IH _ HF) as (ds & Eds & Dds).
    cbn [rmap]. rewrite Ed. cbn [mbind res_bind]. rewrite Eds. cbn [mbind res_bind]. exists (d :: ds). split; [done|].
    intros t' Hq' Hv' st. destruct (Dds t' Hq' Hv' st) as (sl' & HF' & E').
    cbn [concat length replicate map]. rewrite <-app_assoc.
    destruct (Dd t' Hq' Hv' (replicate (length sl) empty_slot) (map s_size sl) (concat ds ++ st)) as (s' & Hs' & Es').
    exists (s' :: sl'). split; [by constructor|]. rewrite Es', E'. done.
Qed.

Lemma maxb_256 : c_maxb c <= 255.
Proof. pose proof (ok_maxb pf c kw vw bmin bmax OK). lia. Qed.

(** Only the array asks for a key width. *)
Lemma ovzero_width kw0 o : c_ov c <> OvArray -> ovzero pf (ov_side pf c kw0) o -> ovzero pf fair o.
Proof. intros Harr. destruct o; cbn [ovzero]; [done|by intros [_ [? _]]|done]. Qed.
(** The overflow without elements. *)
Lemma ov_serialize_nil bo nbk o : c_ov c <> OvArray -> ovrel pf fair bo nbk o [] ->
  exists d, ov_serialize pf c o = Ok d /\ forall o0 st, ovzero pf fair o0 ->
    exists o', ov_deserialize pf c o0 (d ++ st) = Ok (o', st) /\ ovzero pf fair o'.
Proof.
  intros Harr. destruct o as [| |nb els full]; cbn [ovrel]; [|by intros (_ & [? _] & _)|].
  - intros [_ [Hf _]]. exists []. split; [done|]. intros [| |nb' els' full'] st; cbn [ovzero]; [|by intros [_ [? _]]|intros [_ [? _]]; congruence]. by exists ODummy.
  - intros (<- & (_ & _ & Hf) & _). exists (nbits 64 0). split; [done|].
    intros [| |nb' els' full'] st; cbn [ovzero]; [destruct Hf; intros [? _]; congruence|by intros [_ [? _]]|]. intros [-> _]. cbn [ov_deserialize].
    rewrite (read_var_app 64 0) by done. cbn [used of_option mbind res_bind um_read N.to_nat].
    eexists; split; [done|]. done.
Qed.
Lemma ov_serialize_zero o : c_ov c <> OvArray -> ovzero pf fair o ->
  exists d, ov_serialize pf c o = Ok d /\ forall o0 st, ovzero pf fair o0 ->
    exists o', ov_deserialize pf c o0 (d ++ st) = Ok (o', st) /\ ovzero pf fair o'.
Proof.
  intros Harr. destruct o as [| |nb els full]; cbn [ovzero]; [|by intros [_ [? _]]|].
  - intros [Hf _]. exists []. split; [done|]. intros [| |nb' els' full'] st; cbn [ovzero]; [|by intros [_ [? _]]|intros [_ [? _]]; congruence]. by exists ODummy.
  - intros (-> & Hf). exists (nbits 64 0). split; [done|].
    intros [| |nb' els' full'] st; cbn [ovzero]; [destruct Hf; intros [? _]; congruence|by intros [_ [? _]]|]. intros [-> _]. cbn [ov_deserialize].
    rewrite (read_var_app 64 0) by done. cbn [used of_option mbind res_bind um_read N.to_nat].
    eexists; split; [done|]. done.
Qed.

Lemma empty_repr b s : srepr' b s [] -> s = empty_slot.
Proof. by intros (_ & _ & H & _). Qed.
Lemma all_empty b sl ess : Forall2 (srepr' b) sl ess -> concat ess = [] -> sl = replicate (length sl) empty_slot.
Proof.
  induction 1 as [|s es sl ess Hs _ IH]; [done|]. cbn [concat length replicate]. intros E. apply app_eq_nil in E as [-> E].
  by rewrite (empty_repr _ _ Hs), <-IH.
Qed.

(** A table with buckets. *)
Lemma serialize_full t sl ess : c_ov c <> OvArray -> kw < 2^8 -> vw < 2^8 -> tinv t sl ess [] ->
  exists d, serialize pf c t = Ok d /\
    forall fuel t0 tz kw0 vw0 st, clear pf c t0 = Ok tz -> TableInv.tzero pf c kw0 vw0 tz -> kw0 < 2^8 -> vw0 < 2^8 ->
    exists t' sl', deserialize pf c fuel t0 (d ++ st) = Ok (t', st) /\ tinv' t' sl' ess [] /\ t_b t' = t_b t.
Proof.
  intros Harr Hkw Hvw H. unfold serialize.
  destruct (ov_serialize_nil _ _ _ Harr (ti_ov _ _ _ _ _ _ _ _ _ _ _ H)) as (d0 & -> & D0). cbn [mbind res_bind].
  destruct (tinv_bc _ _ _ _ _ _ _ OK _ _ _ _ H) as [Hb0 Hbc]. rewrite Hbc.
  pose proof (tinv_b _ _ _ _ _ _ _ OK _ _ _ _ H) as Hb63.
  rewrite (proj2 (N.eqb_neq (2^(t_b t)) 0)) by (apply N.pow_nonzero; lia).
  rewrite (ti_slots _ _ _ _ _ _ _ _ _ _ _ H). pose proof (ti_len _ _ _ _ _ _ _ _ _ _ _ H) as Hlen. rewrite take_ge by lia.
  destruct (ser_slots_spec t (t_b t) (ti_b _ _ _ _ _ _ _ _ _ _ _ H) (tinv_qw _ _ _ _ _ _ _ _ _ _ _ H) (tinv_vw _ _ _ _ _ _ _ _ _ _ _ H) sl ess
    (ti_repr _ _ _ _ _ _ _ _ _ _ _ H)) as (ds & -> & Dds). cbn [mbind res_bind].
  rewrite (ti_kw _ _ _ _ _ _ _ _ _ _ _ H), (ti_vw _ _ _ _ _ _ _ _ _ _ _ H).
  eexists; split; [done|]. intros fuel t0 tz kw0 vw0 st Hc Hz Hkw0 Hvw0. unfold deserialize. rewrite Hc. cbn [mbind res_bind].
  pose proof Hz as (Hzb & Hzn & Hzk & Hzv & Hzo%(ovzero_width _ _ Harr) & Hzs).
  rewrite <-!app_assoc. destruct (D0 (t_ov tz) (nbits 8 kw ++ nbits 8 vw ++ nbits 8 (t_b t) ++ nbits 64 (t_n t) ++
    concat (map (fun s => nbits 8 (s_size s)) sl) ++ concat ds ++ st) Hzo) as (o' & -> & Hzo'). cbn [mbind res_bind].
  rewrite read_var_app by (rewrite ?nbits_length; done). rewrite read_var_app by (rewrite ?nbits_length; done).
  cbn [used of_option mbind res_bind]. rewrite read_var_app; [|by rewrite replicate_length|change (2^N.of_nat 8) with 256; lia].
  cbn [used of_option mbind res_bind]. unfold shl64. rewrite (proj2 (N.ltb_lt _ _)) by lia. cbn [mbind res_bind].
  rewrite N.shiftl_1_l. unfold u64. rewrite N.mod_small by (apply N.pow_lt_mono_r; lia).
  set (tt := Table _ _ _ _ _ _).
  assert (Htt : tzero tt) by (repeat split; done).
  destruct (reserve_zero pf c kw vw bmin bmax False OK fuel tt (2^(t_b t)) Htt) as (t1 & sl1 & ess1 & -> & H1 & Hb1 & Hc1).
  { split; [|apply pow2_le_63; lia]. pose proof (N.pow_nonzero 2 (t_b t) ltac:(done)). lia. }
  { rewrite N.log2_up_pow2 by lia. apply H. }
  rewrite N.log2_up_pow2 in Hb1 by lia. cbn [mbind res_bind].
  rewrite read_var_app; [|by rewrite nbits_length|].
  2:{ rewrite (ti_n _ _ _ _ _ _ _ _ _ _ _ H). unfold u64. apply N.mod_lt. done. }
  cbn [used of_option mbind res_bind]. destruct (tinv_bc _ _ _ _ _ _ _ OK _ _ _ _ H1) as [_ Hbc1]. rewrite Hbc1, Hb1.
  rewrite (proj2 (N.eqb_neq (2^(t_b t)) 0)) by (apply N.pow_nonzero; lia).
  rewrite (ti_slots _ _ _ _ _ _ _ _ _ _ _ H1). pose proof (ti_len _ _ _ _ _ _ _ _ _ _ _ H1) as Hlen1. rewrite Hb1 in Hlen1.
  rewrite take_ge, drop_ge by lia.
  rewrite st_read_app by (rewrite !sizes_length; lia).
  replace (N.to_nat (2^(t_b t))) with (length sl) by lia.
  rewrite (de_sizes_spec s_size).
  2:{ eapply Forall2_Forall_l; [exact (ti_repr _ _ _ _ _ _ _ _ _ _ _ H)|]. apply Forall_true. intros es s (Hs & Hm & _). rewrite Hs.
      pose proof maxb_256. change (2^8) with 256. lia. }
  cbn [mbind res_bind].
  rewrite (all_empty _ _ _ (ti_repr _ _ _ _ _ _ _ _ _ _ _ H1) Hc1). replace (length sl1) with (length sl) by lia.
  destruct (Dds t1) with (st := st) as (sl' & HF & ->).
  { rewrite (tinv_qw _ _ _ _ _ _ _ _ _ _ _ H1). by rewrite Hb1. }
  { by rewrite (tinv_vw _ _ _ _ _ _ _ _ _ _ _ H1). }
  eexists _, sl'. split; [done|]. split; [|by cbn [t_b]].
  rewrite app_nil_r.
  constructor; cbn [t_slots t_b t_n t_kw t_vw t_ov]; rewrite ?Hb1; try apply H; try done.
  - rewrite <-Hlen. rewrite (Forall2_length _ _ _ HF), (Forall2_length _ _ _ (ti_repr _ _ _ _ _ _ _ _ _ _ _ H)). done.
  - apply H1.
  - apply H1.
  - pose proof (ti_ov _ _ _ _ _ _ _ _ _ _ _ H1) as Ho. rewrite Hb1 in Ho. done.
Qed.

(** A table without buckets. *)
Lemma serialize_zero t : c_ov c <> OvArray -> kw < 2^8 -> vw < 2^8 -> tzero t ->
  exists d, serialize pf c t = Ok d /\
    forall fuel t0 tz kw0 vw0 st, clear pf c t0 = Ok tz -> TableInv.tzero pf c kw0 vw0 tz -> kw0 < 2^8 -> vw0 < 2^8 ->
    exists t', deserialize pf c fuel t0 (d ++ st) = Ok (t', st) /\ tzero t'.
Proof.
  intros Harr Hkw Hvw (Hb & Hn & Hk & Hv & Ho & Hs). unfold serialize.
  destruct (ov_serialize_zero _ Harr Ho) as (d0 & -> & D0). cbn [mbind res_bind].
  unfold bucket_count. rewrite Hb, Hn, Hk, Hv. cbn [N.eqb].
  eexists; split; [done|]. intros fuel t0 tz kw0 vw0 st Hc Hz Hkw0 Hvw0. unfold deserialize. rewrite Hc. cbn [mbind res_bind].
  pose proof Hz as (Hzb & Hzn & Hzk & Hzv & Hzo%(ovzero_width _ _ Harr) & Hzs).
  rewrite <-!app_assoc. destruct (D0 (t_ov tz) (nbits 8 kw ++ nbits 8 vw ++ nbits 8 0 ++ nbits 64 0 ++ st) Hzo) as (o' & -> & Hzo').
  cbn [mbind res_bind].
  rewrite read_var_app by (rewrite ?nbits_length; done). rewrite read_var_app by (rewrite ?nbits_length; done).
  cbn [used of_option mbind res_bind]. rewrite read_var_app by (rewrite ?replicate_length; done).
  cbn [used of_option mbind res_bind]. change (shl64 1 0) with (Ok 1). cbn [mbind res_bind].
  unfold reserve, reserve_with. cbn [t_b]. rewrite Hzb. cbn [N.eqb]. unfold alloc_table.
  change (reserve_bits 1) with (Ok 0). cbn [mbind res_bind t_n t_kw t_vw t_ov].
  rewrite read_var_app by (rewrite ?nbits_length; done). cbn [used of_option mbind res_bind].
  unfold bucket_count. cbn [t_b N.eqb]. eexists; split; [done|].
  unfold set_n. cbn. repeat split; try done.
  - by apply ovzero_resize.
  - by constructor.
Qed.
End serial.
