(** Lengths of the blocks of the buckets along any history. *)
From Verif Require Export ExactModel TableReach.

(** ** Lifting a statement about single buckets to tables *)
Section lift.
Context (pf : platform) (c : cfg) (kw vw : N) (er : Prop) (I : N -> slot -> Prop).
Definition tI (t : table) : Prop := t_kw t = kw /\ t_vw t = vw /\ Forall (I (t_b t)) (slots_of t).

Hypothesis H0 : forall b, I b empty_slot.
Hypothesis Hpush : forall t s q v s', t_kw t = kw -> t_vw t = vw -> s_size s <> c_maxb c -> I (t_b t) s -> push_slot pf c t s q v = Ok s' -> I (t_b t) s'.
Hypothesis Hwrite : forall b s i v w vs, I b s -> b_write pf (c_val c) (s_vals s) i v w = Ok vs -> I b (Slot (s_keys s) vs (s_size s) (s_cap s)).
Hypothesis Hshrink : forall t s s', t_kw t = kw -> t_vw t = vw -> I (t_b t) s -> shrink_slot pf c t s = Ok s' -> I (t_b t) s'.
Hypothesis Herase : er -> forall b s i n w w' ks vs, I b s -> b_erase pf (c_key c) (s_keys s) i n w = Ok ks ->
  b_erase pf (c_val c) (s_vals s) i n w' = Ok vs -> sub8 (s_size s) 1 <> 0 -> I b (Slot ks vs (sub8 (s_size s) 1) (s_cap s)).

Lemma clear_slot_empty s s' : clear_slot pf c s = Ok s' -> s' = empty_slot.
Proof.
  unfold clear_slot, b_clear. intros H. rinv H. rinv E. injection E as <-. rinv H. rinv E. injection E as <-. by injection H as <-.
Qed.
Lemma get_tI t bk s : tI t -> get_slot t bk = Ok s -> I (t_b t) s.
Proof.
  intros (_ & _ & H). unfold get_slot, slots_of in *. destruct (t_slots t) as [sl|]; [|done]. destruct (bk <? _); [|done].
  destruct (sl !! N.to_nat bk) eqn:El; [|done]. intros E. injection E as <-. by eapply Forall_lookup_1.
Qed.
Lemma set_tI t bk s : tI t -> I (t_b t) s -> tI (set_slot t bk s).
Proof.
  intros (H1 & H2 & H) Hs. split; [done|]. split; [done|]. unfold slots_of in *. cbn [set_slot t_slots t_b]. destruct (t_slots t) as [sl|]; [|done].
  cbn [fmap option_fmap option_map]. by apply Forall_insert.
Qed.
Lemma tI_ov t o : tI t -> tI (set_ov t o).
Proof. done. Qed.
Lemma tI_n t n : tI t -> tI (set_n t n).
Proof. done. Qed.
Lemma alloc_tI t n t' : t_kw t = kw -> t_vw t = vw -> alloc_table pf t n = Ok t' -> tI t'.
Proof.
  unfold alloc_table. intros H1 H2 H. rinv H. injection H as <-. split; [done|]. split; [done|]. cbn [slots_of t_slots t_b]. apply Forall_replicate, H0.
Qed.

Lemma rfold_tI {B} (f : table -> B -> res table) l : (forall t x t', tI t -> f t x = Ok t' -> tI t') ->
  forall t t', tI t -> rfold f l t = Ok t' -> tI t'.
Proof. intros Hf. induction l as [|x l IH]; intros t t' Ht; cbn [rfold]; intros H; [by injection H as <-|]. rinv H. eauto. Qed.

Lemma reserve_tI ins t n t' : (forall t k v r, tI t -> ins t k v = Ok r -> tI (fst r)) -> tI t ->
  reserve_with pf c ins t n = Ok t' -> tI t'.
Proof.
  intros Hi Ht. unfold reserve_with. destruct (t_b t =? 0); [apply alloc_tI; apply Ht|]. intros H. rinv H. rinv H.
  assert (Ha : tI a0) by (eapply alloc_tI; [..|exact E0]; apply Ht).
  destruct (t_slots t) as [sl|]; [|done]. rinv H. rinv H. rinv H. injection H as <-.
  assert (Hb : tI a1).
  { eapply rfold_tI; [|exact Ha|exact E1]. intros u [i s] u' Hu. unfold rehash_slot. destruct (s_size s =? 0); intros H.
    - rinv H. rinv H. by injection H as <-.
    - rinv H. rinv H. injection H as <-. eapply rfold_tI; [|exact Hu|exact E4]. intros y j y' Hy H. cbn beta in H. rinv H. rinv H. rinv H. rinv H. injection H as <-. eauto. }
  clear -Hi Hb E2. revert E2 Hb. generalize (S (N.to_nat (ov_capacity (t_ov t)))) as f, (ov_first pf (t_ov t)) as i. intros f. revert a1.
  induction f as [|f IH]; intros u i; cbn [rehash_overflow]; destruct (ov_valid _ _ _); intros H Hu; try done; try (by injection H as <-).
  rinv H. rinv H. rinv H. eapply IH; [exact H|]. eauto.
Qed.

Lemma foi_tI fuel : forall t k v r, tI t -> find_or_insert pf c fuel t k v = Ok r -> tI (fst r).
Proof.
  induction fuel as [|f IH]; intros t k v r Ht; [done|]. cbn [find_or_insert]. intros H. rinv H.
  assert (Ha : tI a). { destruct (t_b t =? 0); [|by injection E as <-]. eapply alloc_tI; [..|exact E]; apply Ht. }
  clear E. rinv H. destruct a0 as [q bk]. rinv H. rinv H. destruct a1 as [p|]; [by injection H as <-|]. rinv H. rinv H.
  destruct a2 as [p|]; [by injection H as <-|]. destruct (N.eqb_spec (s_size a0) (c_maxb c)) as [|Hmax].
  - rinv H. destruct a2 as [o [p|]]; [by injection H as <-|]. rinv H. rinv H.
    eapply IH; [|exact H]. eapply reserve_tI; [|apply tI_ov, Ha|exact E6]. intros; eapply IH; eauto.
  - rinv H. injection H as <-. cbn [fst]. apply set_tI; [by apply tI_n|]. cbn [set_n t_b].
    eapply Hpush; [..|exact E4]; [apply Ha|apply Ha|done|]. by eapply get_tI.
Qed.
Lemma write_tI t x v t' : tI t -> write_value pf c t x v = Ok t' -> tI t'.
Proof.
  destruct x as [bk pos]. unfold write_value. intros Ht. destruct (bk =? _); intros H.
  - rinv H. by injection H as <-.
  - rinv H. rinv H. injection H as <-. apply set_tI; [done|]. eapply Hwrite; [|exact E0]. by eapply get_tI.
Qed.
Lemma erase_at_tI t x r : er -> tI t -> erase_at pf c t x = Ok r -> tI (fst r).
Proof.
  destruct x as [bk pos]. unfold erase_at. intros He Ht. destruct (pos =? ones64); intros H; [by injection H as <-|].
  destruct ((0 <? ov_size (t_ov t)) && (bk =? bucket_count t)).
  - rinv H. by injection H as <-.
  - rinv H. rinv H. rinv H. cbn zeta in H. destruct (N.eqb_spec (sub8 (s_size a) 1) 0) as [Ez|Ez]; cbn [s_size] in H.
    + rewrite (proj2 (N.eqb_eq _ _) Ez) in H. rinv H. injection H as <-. cbn [fst]. apply set_tI; [done|]. apply clear_slot_empty in E2 as ->. apply H0.
    + rewrite (proj2 (N.eqb_neq _ _) Ez) in H. injection H as <-. cbn [fst]. apply set_tI; [done|]. cbn [set_n t_b].
      eapply Herase; [done| |exact E0|exact E1|done]. by eapply get_tI.
Qed.
Lemma erase_tI t k r : er -> tI t -> erase pf c t k = Ok r -> tI (fst r).
Proof.
  unfold erase. intros He Ht. destruct (t_b t =? 0); intros H; [by injection H as <-|]. rinv H. destruct a as [bk pos]. by eapply erase_at_tI.
Qed.
Lemma shrink_tI t t' : tI t -> shrink_to_fit pf c t = Ok t' -> tI t'.
Proof.
  unfold shrink_to_fit. intros Ht. destruct (t_b t =? 0); [intros H; by injection H as <-|]. destruct Ht as (H1 & H2 & HF). unfold slots_of in HF.
  destruct (t_slots t) as [sl|]; [|done]. intros H. rinv H. injection H as <-. split; [done|]. split; [done|]. cbn [slots_of t_slots t_b].
  apply Forall_app. split; [|by apply Forall_drop]. assert (HF' : Forall (I (t_b t)) (take (N.to_nat (bucket_count t)) sl)) by (by apply Forall_take). clear HF. revert a E.
  induction (take (N.to_nat (bucket_count t)) sl) as [|s l IH]; intros a; cbn [rmap]; intros H; [injection H as <-; apply List.Forall_nil|].
  rinv H. rinv H. injection H as <-. apply Forall_cons in HF' as [Hs HF]. apply List.Forall_cons; [by eapply Hshrink|]. by apply IH.
Qed.
Lemma clear_tI t t' : tI t -> clear pf c t = Ok t' -> tI t'.
Proof.
  unfold clear. intros Ht. destruct (t_slots t) as [sl|] eqn:Es.
  - intros H. rinv H. unfold clear_structure in H. rinv H. rinv H. injection H as <-. cbn [t_kw t_vw].
    split; [apply Ht|]. split; [apply Ht|]. apply List.Forall_nil.
  - intros H. rinv H. by injection H as <-.
Qed.

Definition erasing (o : op) : Prop := match o with OpErase _ | OpEraseIt _ => True | _ => False end.
Definition serasing (o : sop) : Prop := match o with SErase _ => True | _ => False end.
Lemma run_tI fuel ops : Forall (fun o => erasing o -> er) ops ->
  forall t r, tI t -> run_ops pf c fuel t ops = Ok r -> tI (fst r).
Proof.
  induction 1 as [|o ops Ho _ IH]; intros t r Ht; cbn [run_ops]; intros H; [by injection H as <-|].
  rinv H. destruct a as [u x]. rinv H. destruct a as [u' xs]. injection H as <-. cbn [fst]. apply (IH u (u', xs)); [|done]. clear IH E0.
  destruct o; cbn [run_op erasing] in *.
  - rinv E. rinv E. by injection E as <- _.
  - rinv E. by injection E as <- _.
  - rinv E. destruct a as [y z]. rinv E. injection E as <- _. by apply (foi_tI _ _ _ _ _ Ht E0).
  - rinv E. destruct a as [y z]. rinv E. injection E as <- _. by apply (foi_tI _ _ _ _ _ Ht E0).
  - rinv E. destruct a as [y z]. rinv E. injection E as <- _. eapply write_tI; [|exact E1]. by apply (foi_tI _ _ _ _ _ Ht E0).
  - rinv E. destruct a as [y z]. injection E as <- _. by apply (erase_tI _ _ _ (Ho Logic.I) Ht E0).
  - rinv E. rinv E. destruct a0 as [y z]. injection E as <- _. by apply (erase_at_tI _ _ _ (Ho Logic.I) Ht E1).
  - by injection E as <- _.
  - by injection E as <- _.
  - rinv E. injection E as <- _. eapply reserve_tI; [|exact Ht|exact E0]. intros; by eapply foi_tI.
  - rinv E. injection E as <- _. by eapply shrink_tI.
  - rinv E. injection E as <- _. by eapply clear_tI.
Qed.
Lemma run_stI fuel ops : Forall (fun o => serasing o -> er) ops ->
  forall t r, tI t -> run_sops pf c fuel t ops = Ok r -> tI (fst r).
Proof.
  induction 1 as [|o ops Ho _ IH]; intros t r Ht; cbn [run_sops]; intros H; [by injection H as <-|].
  rinv H. destruct a as [u x]. rinv H. destruct a as [u' xs]. injection H as <-. cbn [fst]. apply (IH u (u', xs)); [|done]. clear IH E0.
  destruct o; cbn [run_sop serasing] in *.
  - rinv E. rinv E. by injection E as <- _.
  - rinv E. by injection E as <- _.
  - rinv E. destruct a as [y z]. rinv E. injection E as <- _. by apply (foi_tI _ _ _ _ _ Ht E0).
  - rinv E. destruct a as [y z]. injection E as <- _. by apply (erase_tI _ _ _ (Ho Logic.I) Ht E0).
  - by injection E as <- _.
  - by injection E as <- _.
  - rinv E. injection E as <- _. eapply reserve_tI; [|exact Ht|exact E0]. intros; by eapply foi_tI.
  - rinv E. injection E as <- _. by eapply shrink_tI.
  - rinv E. injection E as <- _. by eapply clear_tI.
Qed.
Lemma new_tI : tI (new_table pf c kw vw).
Proof. split; [done|]. split; [done|]. apply List.Forall_nil. Qed.
End lift.

(** ** Block lengths after single bucket calls *)
Lemma fresh_cells_len pf n : length (fresh_cells pf n) = n.
Proof. apply replicate_length. Qed.
Lemma fresh_bits_len pf n : length (fresh_bits pf n) = n.
Proof. apply replicate_length. Qed.
Lemma cdiv_packed iw n w : (iw * cdiv (n * w) iw)%nat = packed iw n w.
Proof. done. Qed.
Lemma init_len pf kd n w : block_len (b_initialize pf kd n w) = exact_len kd n w.
Proof. destruct kd; cbn [b_initialize block_len exact_len]; [apply fresh_cells_len..|apply fresh_bits_len|done]. Qed.
Lemma write_raw_len pf l word off x l' : write_raw pf l word off x = Ok l' -> length l' = length l.
Proof. unfold write_raw. destruct (_ && _) eqn:E; [|done]. intros H. injection H as <-. apply wrbits_length. apply andb_true_iff in E as [_ E]. by apply Nat.leb_le in E. Qed.
Lemma write_len pf kd b i v w b' : kd <> KNull -> b_write pf kd b i v w = Ok b' -> block_len b' = block_len b.
Proof.
  destruct kd; cbn [b_write]; intros Hn; try done; destruct b as [[t [cs|bs]]|]; try done.
  1-3: destruct (i <? length cs)%nat; [|done]; intros H; injection H as <-; cbn [block_len]; apply insert_length.
  intros H. rinv H. injection H as <-. cbn [block_len]. unfold write_int in E. by eapply write_raw_len.
Qed.
Lemma write_null pf b i v w b' : b_write pf KNull b i v w = Ok b' -> b' = None.
Proof. intros H. by injection H as <-. Qed.
Lemma erase_loop_len n : forall cs i cs', cells_erase_loop cs i n = Ok cs' -> length cs' = length cs.
Proof.
  induction n as [|n IH]; intros cs i cs'; cbn [cells_erase_loop]; [intros H; by injection H as <-|]. destruct (cs !! i); [|done].
  intros H. apply IH in H. by rewrite insert_length in H.
Qed.
Lemma move_chunks_len pf n : forall bs rw ro ww wo r, move_chunks pf bs rw ro ww wo n = Ok r -> length (fst (fst r)) = length bs.
Proof.
  induction n as [|n IH]; intros bs rw ro ww wo r; cbn [move_chunks]; [intros H; by injection H as <-|]. intros H. rinv H.
  destruct (move_right rw ro 64). rinv H. destruct (move_right ww wo 64). apply IH in H. rewrite H. by eapply write_raw_len.
Qed.
Lemma erase_len pf kd b i n w b' : b_erase pf kd b i n w = Ok b' -> block_len b' = block_len b.
Proof.
  destruct kd; cbn [b_erase]; try (intros H; by injection H as <-); destruct b as [[t [cs|bs]]|]; try done.
  1,3,5: intros H; rinv H; injection H as <-; cbn [block_len]; by eapply erase_loop_len.
  1-3: destruct (_ <? _)%nat; [done|]; intros H; by injection H as <-.
  intros H. rinv H. injection H as <-. cbn [block_len]. unfold bits_erase in E. cbv zeta in E. rinv E. destruct a0 as [[u [? ?]] [? ?]].
  apply move_chunks_len in E0. cbn [fst] in E0. rewrite <-E0. destruct (0 <? _)%nat; [|by injection E as <-]. rinv E. by eapply write_raw_len.
Qed.
Lemma resize_array_len pf kd b old new w b' : array_kind kd -> b_resize pf kd b old new w = Ok b' -> block_len b' = new.
Proof.
  destruct kd; cbn [array_kind]; intros Ha; try done; cbn [b_resize]; destruct b as [[t [cs|bs]]|]; try done.
  - destruct (free_ok _ _ _); [|done]. intros H. injection H as <-. cbn [block_len]. unfold realloc_cells. rewrite app_length, take_length, fresh_cells_len. lia.
  - intros H. injection H as <-. apply fresh_cells_len.
  - intros H. rinv H. unfold cells_prefix in E. destruct (Nat.leb_spec old (length cs)); [|done]. injection E as <-.
    destruct (Nat.ltb_spec new old); [done|]. destruct (free_ok _ _ _); [|done]. injection H as <-. cbn [block_len]. rewrite app_length, take_length, fresh_cells_len. lia.
  - destruct (Nat.eqb_spec old 0); [|done]. intros H. injection H as <-. apply fresh_cells_len.
  - intros H. rinv H. unfold cells_prefix in E. destruct (Nat.leb_spec old (length cs)); [|done]. injection E as <-.
    destruct (Nat.ltb_spec new old); [done|]. destruct (free_ok _ _ _); [|done]. injection H as <-. cbn [block_len]. rewrite app_length, take_length, fresh_cells_len. lia.
  - destruct (Nat.eqb_spec old 0); [|done]. intros H. injection H as <-. apply fresh_cells_len.
Qed.
Lemma resize_var_len pf iw b old new w b' : b_resize pf (KVar iw) b old new w = Ok b' -> (old <= new)%nat ->
  block_len b' = packed iw new w \/ packed iw new w = packed iw old w /\ b' = b.
Proof.
  cbn [b_resize]. intros H Hle. destruct (Nat.ltb_spec (cdiv (old * w) iw) (cdiv (new * w) iw)) as [Hlt|Hge].
  - left. destruct b as [[t [cs|bs]]|]; try done.
    + destruct (free_ok _ _ _); [|done]. injection H as <-. cbn [block_len]. unfold realloc_bits. rewrite app_length, take_length, fresh_bits_len, cdiv_packed. lia.
    + injection H as <-. apply fresh_bits_len.
  - right. injection H as <-. split; [|done]. unfold packed. f_equal. unfold cdiv in Hge.
    destruct iw as [|iw]; [done|]. apply Nat.le_antisymm; [done|]. apply Nat.div_le_mono; [done|].
    assert (old * w <= new * w)%nat by (by apply Nat.mul_le_mono_r). lia.
Qed.

(** ** arbitrary_resize: the block of a bucket holds as many elements as m_maxbucketsizes says *)
Definition cap_slot (c : cfg) (b : N) (s : slot) : Prop :=
  s_size s < 256 /\ (array_kind (c_key c) -> block_len (s_keys s) = N.to_nat (s_cap s)) /\ (array_kind (c_val c) -> block_len (s_vals s) = N.to_nat (s_cap s)).
Lemma array_not_null kd : array_kind kd -> kd <> KNull.
Proof. by intros H ->. Qed.
Lemma u8_lt x : u8 x < 256.
Proof. unfold u8. apply N.mod_lt. done. Qed.
Lemma u8_small x : x < 256 -> u8 x = x.
Proof. intros H. unfold u8. by apply N.mod_small. Qed.
Lemma after_lt c n : c_arb c = true -> rs_size_after c n < 256.
Proof. intros Ha. unfold rs_size_after. rewrite Ha. unfold arb_size_after_increment. apply u8_lt. Qed.

Section cap.
Context (pf : platform) (c : cfg) (kw vw : N).
Hypothesis Ha : c_arb c = true.
Lemma cap_push t s q v s' : cap_slot c (t_b t) s -> push_slot pf c t s q v = Ok s' -> cap_slot c (t_b t) s'.
Proof.
  intros (Hsz & Hk & Hv). unfold push_slot. intros H. rinv H. rinv H. rinv H. injection H as <-. unfold cap_slot. cbn [s_size s_keys s_vals s_cap].
  assert (Hc : cap_slot c (t_b t) a).
  { clear E0 E1. destruct (s_size s =? 0).
    - injection E as <-. unfold cap_slot. cbn [s_size s_keys s_vals s_cap]. split; [lia|]. unfold rs_store. rewrite Ha, !init_len.
      split; [destruct (c_key c); try done|destruct (c_val c); try done].
    - cbv zeta in E. destruct (rs_needs_resize c (s_cap s) (u8 (s_size s + 1))).
      + rinv E. rinv E. injection E as <-. unfold cap_slot. cbn [s_size s_keys s_vals s_cap]. split; [apply u8_lt|].
        unfold rs_store. rewrite Ha, u8_small by (by apply after_lt). split; intros Hq; by eapply resize_array_len.
      + injection E as <-. unfold cap_slot. cbn [s_size s_keys s_vals s_cap]. split; [apply u8_lt|]. done. }
  destruct Hc as (H1 & H2 & H3). split; [done|]. split; intros Hq.
  - rewrite (write_len _ _ _ _ _ _ _ (array_not_null _ Hq) E0). by apply H2.
  - rewrite (write_len _ _ _ _ _ _ _ (array_not_null _ Hq) E1). by apply H3.
Qed.
Lemma cap_shrink t s s' : cap_slot c (t_b t) s -> shrink_slot pf c t s = Ok s' -> cap_slot c (t_b t) s'.
Proof.
  intros (Hsz & Hk & Hv). unfold shrink_slot. destruct (s_size s =? 0); [intros H; by injection H as <-|].
  destruct (rs_can_shrink _ _ _); [|intros H; by injection H as <-]. cbv zeta. intros H. rinv H. rinv H. injection H as <-.
  unfold cap_slot. cbn [s_size s_keys s_vals s_cap]. split; [done|]. unfold rs_store. rewrite Ha, u8_small by done. split; intros Hq; by eapply resize_array_len.
Qed.
Lemma cap_write b s i v w vs : cap_slot c b s -> b_write pf (c_val c) (s_vals s) i v w = Ok vs -> cap_slot c b (Slot (s_keys s) vs (s_size s) (s_cap s)).
Proof. intros (Hsz & Hk & Hv) E. split; [done|]. split; [done|]. intros Hq. cbn [s_vals s_cap]. rewrite (write_len _ _ _ _ _ _ _ (array_not_null _ Hq) E). by apply Hv. Qed.
Lemma cap_erase b s i n w w' ks vs : cap_slot c b s -> b_erase pf (c_key c) (s_keys s) i n w = Ok ks ->
  b_erase pf (c_val c) (s_vals s) i n w' = Ok vs -> cap_slot c b (Slot ks vs (sub8 (s_size s) 1) (s_cap s)).
Proof.
  intros (Hsz & Hk & Hv) E1 E2. split; [apply u8_lt|]. cbn [s_keys s_vals s_cap]. by rewrite (erase_len _ _ _ _ _ _ _ E1), (erase_len _ _ _ _ _ _ _ E2).
Qed.
Lemma cap_reach t m : reachable pf c kw vw t m -> Forall (cap_slot c (t_b t)) (slots_of t).
Proof.
  intros Hr. apply (proj2 (A := t_vw t = vw)), (proj2 (A := t_kw t = kw)). change (tI kw vw (cap_slot c) t).
  assert (H0 : forall b, cap_slot c b empty_slot) by done.
  assert (Hp : forall t s q v s', t_kw t = kw -> t_vw t = vw -> s_size s <> c_maxb c -> cap_slot c (t_b t) s -> push_slot pf c t s q v = Ok s' -> cap_slot c (t_b t) s').
  { intros u s q v s' _ _ _. apply cap_push. }
  assert (Hs : forall t s s', t_kw t = kw -> t_vw t = vw -> cap_slot c (t_b t) s -> shrink_slot pf c t s = Ok s' -> cap_slot c (t_b t) s').
  { intros u s s' _ _. apply cap_shrink. }
  assert (He : True -> forall b s i n w w' ks vs, cap_slot c b s -> b_erase pf (c_key c) (s_keys s) i n w = Ok ks ->
    b_erase pf (c_val c) (s_vals s) i n w' = Ok vs -> sub8 (s_size s) 1 <> 0 -> cap_slot c b (Slot ks vs (sub8 (s_size s) 1) (s_cap s))).
  { intros _ b s i n w w' ks vs H1 H2 H3 _. by eapply cap_erase. }
  destruct Hr as [fuel ops t outs _ _ _ E|fuel ops t outs _ _ _ E].
  - apply (run_tI pf c kw vw True (cap_slot c) H0 Hp cap_write Hs He fuel ops) in E; [done| |apply new_tI]. by apply Forall_true.
  - apply (run_stI pf c kw vw True (cap_slot c) H0 Hp Hs He fuel ops) in E; [done| |apply new_tI]. by apply Forall_true.
Qed.
End cap.

(** ** incremental_resize without erase: the block is exactly as long as the bucket needs *)
Definition qwn (c : cfg) (kw b : N) : nat := N.to_nat (remainder_width (HMap (c_hash c) kw (c_keybits c) (N.of_nat (kind_bits (c_key c)))) b).
Definition full_slot (c : cfg) (kw vw b : N) (s : slot) : Prop :=
  let n := N.to_nat (s_size s) in
  s_size s <= c_maxb c
  /\ (block_len (s_keys s) = exact_len (c_key c) n (qwn c kw b)
      \/ exists iw, c_key c = KVar iw /\ packed iw n (qwn c kw b) = packed iw 1 (qwn c kw b) /\ block_len (s_keys s) = packed iw 1 (N.to_nat kw))
  /\ block_len (s_vals s) = exact_len (c_val c) n (N.to_nat vw).
Lemma packed_0 iw w : packed iw 0 w = 0%nat.
Proof. unfold packed. destruct iw; [done|]. cbn [Nat.mul]. rewrite Nat.div_small by lia. lia. Qed.
Lemma exact_0 kd w : exact_len kd 0 w = 0%nat.
Proof. destruct kd; cbn [exact_len]; try done. apply packed_0. Qed.
Lemma resize_len pf kd b old new w b' : b_resize pf kd b old new w = Ok b' -> (old <= new)%nat ->
  block_len b' = exact_len kd new w \/ exists iw, kd = KVar iw /\ packed iw new w = packed iw old w /\ b' = b.
Proof.
  intros H Hle. destruct kd as [| | |iw|].
  1-3: left; by eapply resize_array_len in H.
  - destruct (resize_var_len _ _ _ _ _ _ _ H Hle) as [?|[? ?]]; [by left|right; by exists iw].
  - left. by injection H as <-.
Qed.
Lemma write_len' pf kd b i v w b' n w' : b_write pf kd b i v w = Ok b' -> block_len b = exact_len kd n w' -> block_len b' = exact_len kd n w'.
Proof. intros H. assert (kd = KNull \/ kd <> KNull) as [->|Hn] by (destruct kd; auto; by right); [by apply write_null in H as ->|]. by rewrite (write_len _ _ _ _ _ _ _ Hn H). Qed.

Section full.
Context (pf : platform) (c : cfg) (kw vw : N).
Hypothesis Hi : c_arb c = false.
Hypothesis Hm : c_maxb c <= 255.
Hypothesis Hkn : c_key c <> KNull.
Lemma qwn_eq t : t_kw t = kw -> qwidth c t = qwn c kw (t_b t).
Proof. intros H. unfold qwidth, qwn, hm. by rewrite H. Qed.
Lemma full_push t s q v s' : t_kw t = kw -> t_vw t = vw -> 1 <= c_maxb c -> s_size s <> c_maxb c -> full_slot c kw vw (t_b t) s -> push_slot pf c t s q v = Ok s' -> full_slot c kw vw (t_b t) s'.
Proof.
  intros E1 E2 H1 Hne (Hsz & Hk & Hv). unfold push_slot. intros H. rinv H. rinv H. rinv H. injection H as <-.
  assert (Hc : full_slot c kw vw (t_b t) a).
  { clear E0 E3. destruct (N.eqb_spec (s_size s) 0) as [E0|E0].
    - injection E as <-. unfold full_slot. cbn [s_size s_keys s_vals s_cap]. rewrite !init_len. unfold vwidth. rewrite E1, E2. split; [done|]. split; [|done].
      destruct (c_key c) as [| | |iw|]; try (by left). right. by exists iw.
    - cbv zeta in E. unfold rs_needs_resize, inc_needs_resize, rs_size_after, inc_size_after_increment in E. rewrite Hi in E.
      assert (Hu : u8 (s_size s + 1) = s_size s + 1) by (apply u8_small; lia). rewrite Hu in E.
      assert (Hold : N.to_nat (sub64 (s_size s + 1) 1) = N.to_nat (s_size s)).
      { f_equal. unfold sub64, u64. change (1 mod 2^64) with 1. replace (s_size s + 1 + 2^64 - 1) with (s_size s + 1 * 2^64) by lia. rewrite N.mod_add by done.
        apply N.mod_small. assert (255 < 2^64) by done. lia. }
      rewrite Hold in E. rinv E. rinv E. injection E as <-. unfold full_slot. cbn [s_size s_keys s_vals s_cap]. rewrite (qwn_eq t E1) in E3. unfold vwidth in E4. rewrite E2 in E4.
      split; [lia|]. split.
      + destruct (resize_len _ _ _ _ _ _ _ E3 ltac:(lia)) as [H|(iw & Ek & Hp & ->)]; [by left|]. rewrite Ek in *. cbn [exact_len] in *. rewrite Hp.
        destruct Hk as [Hk|(iw' & Ek' & Hk)]; [by left|]. injection Ek' as <-. right. exists iw. rewrite Hp. by split.
      + destruct (resize_len _ _ _ _ _ _ _ E4 ltac:(lia)) as [H|(iw & Ek & Hp & ->)]; [done|]. rewrite Ek in *. cbn [exact_len] in *. by rewrite Hp. }
  destruct Hc as (H2 & H3 & H4). split; [done|]. cbn [s_size s_keys s_vals s_cap]. split; [|by eapply write_len'].
  by rewrite (write_len _ _ _ _ _ _ _ Hkn E0).
Qed.
Lemma full_shrink t s s' : t_kw t = kw -> t_vw t = vw -> full_slot c kw vw (t_b t) s -> shrink_slot pf c t s = Ok s' -> full_slot c kw vw (t_b t) s'.
Proof.
  intros E1 E2 (Hsz & Hk & Hv). unfold shrink_slot. destruct (s_size s =? 0); [intros H; by injection H as <-|].
  destruct (rs_can_shrink _ _ _); [|intros H; by injection H as <-]. cbv zeta. intros H. rinv H. rinv H. injection H as <-. rewrite (qwn_eq t E1) in E. unfold vwidth in E0. rewrite E2 in E0.
  split; [done|]. cbn [s_size s_keys s_vals s_cap]. split.
  - destruct (resize_len _ _ _ _ _ _ _ E ltac:(lia)) as [H|(iw & Ek & Hp & ->)]; [by left|done].
  - by destruct (resize_len _ _ _ _ _ _ _ E0 ltac:(lia)) as [H|(iw & Ek & Hp & ->)].
Qed.
Lemma full_write b s i v w vs : full_slot c kw vw b s -> b_write pf (c_val c) (s_vals s) i v w = Ok vs -> full_slot c kw vw b (Slot (s_keys s) vs (s_size s) (s_cap s)).
Proof. intros (Hsz & Hk & Hv) E. split; [done|]. split; [done|]. cbn [s_size s_vals]. by eapply write_len'. Qed.
Lemma full_empty b : full_slot c kw vw b empty_slot.
Proof. split; [apply N.le_0_l|]. cbn [empty_slot s_size s_keys s_vals block_len]. change (N.to_nat 0) with 0%nat. rewrite !exact_0. split; [by left|done]. Qed.
Lemma full_run fuel ops t outs : 1 <= c_maxb c -> Forall (fun o => ~ erasing o) ops -> run_ops pf c fuel (new_table pf c kw vw) ops = Ok (t, outs) -> tI kw vw (full_slot c kw vw) t.
Proof.
  intros H1 Ho E.
  apply (run_tI pf c kw vw False (full_slot c kw vw) full_empty) in E; try done; try apply new_tI.
  - intros. by eapply full_push.
  - intros. by eapply full_write.
  - intros. by eapply full_shrink.
Qed.
Lemma full_srun fuel ops t outs : 1 <= c_maxb c -> Forall (fun o => ~ serasing o) ops -> run_sops pf c fuel (new_table pf c kw vw) ops = Ok (t, outs) -> tI kw vw (full_slot c kw vw) t.
Proof.
  intros H1 Ho E.
  apply (run_stI pf c kw vw False (full_slot c kw vw) full_empty) in E; try done; try apply new_tI.
  - intros. by eapply full_push.
  - intros. by eapply full_shrink.
Qed.
End full.
