(* The properties of buffers in the terms of BufferUser.v. *)
From Coq Require Import ZArith List Bool Lia.
From Verif Require Import MBuf MBufSpec MBufMem MBufAbs MBufRemap MBufApply MBufReserve MBufInit
  MemPool Buffer BufferSpec BufferUser BufferProofs BufferReserve BufferNew BufferNorm BufferAddMem
  BufferAdd BufferAddLoop BufferAddMain BufferReach BufferWrite.
Import ListNotations.
Local Open Scope Z_scope.


Lemma reach_no_end b : reachable full_arrays b -> no_end_pointer (b_mem b).
Proof.
  intros H. destruct (reachable_inv _ _ H) as (A & I & V & F).
  apply (remappable_iff _ _ _ (bi_repr _ _ I)). auto.
Qed.

Lemma reachable_mono (P Q : request -> Prop) b : (forall q, P q -> Q q) -> reachable P b -> reachable Q b.
Proof.
  intros HPQ. induction 1.
  - eapply r_new; eauto.
  - eapply r_add; eauto.
  - eapply r_keep; eauto.
  - eapply r_empty; eauto.
  - eapply r_write; eauto.
  - eapply r_detailed; eauto.
Qed.

Lemma acontent_length A : length (acontent A) = length (a_objs A).
Proof. unfold acontent. now rewrite map_length. Qed.

(* ------------------------------------------------------------------ *)
(* adding *)
Lemma add_one hp b q r b' : reachable any b -> good_heap hp -> request_ok b q ->
  add hp b q = Some (r, b') -> r <> 0 ->
  exists o, stored_as q o /\ objects b' = objects b ++ [o].
Proof.
  intros H Hh Hq E Hr. destruct (reachable_inv _ _ H) as (A & I & V & _).
  destruct (add_inv hp b A q r b' Hh I V Hq E Hr) as (A' & ow & arrs & OD & I' & V' & C & _).
  exists (rq_type q, expected_object ow (rq_attrs q) arrs). split; [exists ow, arrs; auto|].
  now rewrite (objects_eq b A I), (objects_eq b' A' I').
Qed.

Lemma add_many b l b' : reachable any b -> additions b l b' ->
  exists os, Forall2 stored_as l os /\ objects b' = objects b ++ os.
Proof.
  intros H E. destruct (reachable_inv _ _ H) as (A & I & V & _). destruct (additions_inv b A l b' I V E) as (A' & os & I' & V' & C & F).
  exists os. split; [assumption|]. now rewrite (objects_eq b A I), (objects_eq b' A' I').
Qed.

Lemma add_defined hp b q : reachable any b -> good_heap hp -> request_ok b q ->
  exists r b', add hp b q = Some (r, b').
Proof.
  intros H Hh (HC & Hov). destruct (reachable_inv _ _ H) as (A & I & V & _).
  destruct (add_all hp b A (rq_mem q) (rq_obj q) (rq_size q) (rq_type q) (rq_attrs q) Hh I V HC Hov)
    as (r & b2 & E & _). exists r, b2. exact E.
Qed.

Lemma write_defined b i k v t cells w : reachable any b -> nth_error (objects b) i = Some (t, cells) ->
  nth_error cells k = Some (Raw w) -> 0 <= v < 2 ^ 64 -> exists b', writes b i k v b'.
Proof.
  intros H Ho Hc Hv. destruct (reachable_inv _ _ H) as (A & I & V & _).
  pose proof (bi_repr _ _ I) as R. pose proof (re_ok _ _ _ R) as OK.
  pose proof Ho as Ho'. rewrite (objects_eq b A I) in Ho'.
  destruct (content_nth A i t cells OK Ho') as (s & n & E & -> & Hs & Hn & He & Hl).
  assert (Lk : Z.of_nat k < n).
  { assert (k < length (map (rel_cell s) (slice (a_cells A) s n)))%nat by (apply nth_error_Some; congruence).
    unfold zlen in Hl. lia. }
  pose proof (obj_ok _ _ _ R _ _ _ _ E) as (Eb & _).
  pose proof (re_len _ _ _ R) as L.
  pose proof (layout A OK) as (L3 & L4 & L5 & L6 & Lt & N3 & N4 & N5 & N6).
  pose proof (ok_bounds A OK) as (Bc & Bo & Bd & Bg).
  eexists. eapply w_word; [exact Ho|exact Hc|exact Hv|]. rewrite Eb.
  apply (wr_ok _ _ (10 + (s + Z.of_nat k))); lia.
Qed.

Lemma write_one b i k v b' : reachable any b -> writes b i k v b' ->
  exists t cells, nth_error (objects b) i = Some (t, cells) /\ objects b' = replace (objects b) i (t, replace cells k (Raw v)).
Proof.
  intros H W. destruct (reachable_inv _ _ H) as (A & I & V & _).
  destruct (write_inv b A i k v b' I V W) as (A' & I' & V' & X & _).
  now rewrite (objects_eq b A I), (objects_eq b' A' I').
Qed.

Lemma empty_objects b b' : reachable any b -> empties b b' -> objects b' = [].
Proof.
  intros H W. destruct (reachable_inv _ _ H) as (A & I & V & _).
  destruct (empties_inv b A b' I V W) as (ms & mo & md & mg & I' & V').
  rewrite (objects_eq b' _ I'). reflexivity.
Qed.

Lemma keep_objects b b' : reachable any b -> keeps b b' -> objects b' = objects b.
Proof.
  intros H W. destruct (reachable_inv _ _ H) as (A & I & V & _).
  destruct (keeps_inv b A b' I V W) as (A' & I' & V' & C & _).
  now rewrite (objects_eq b A I), (objects_eq b' _ I').
Qed.

Lemma performs_ok b l b' : reachable any b -> performs b l b' ->
  reachable any b' /\ effects (objects b) l (objects b').
Proof.
  intros H P. induction P as [b|b l b1 hp q r b2 P IH Hh Hq E Hr|b l b1 i k v b2 P IH W
    |b l b1 b2 P IH K|b l b1 b2 P IH K].
  - split; [assumption|constructor].
  - destruct (IH H) as (R & F). split; [eapply r_add; eauto; exact Logic.I|].
    destruct (add_one hp b1 q r b2 R Hh Hq E Hr) as (o & S & ->).
    eapply es_snoc; [exact F|]. now constructor.
  - destruct (IH H) as (R & F). split; [eapply r_write; eauto|].
    destruct (write_one b1 i k v b2 R W) as (t & cells & N & ->).
    eapply es_snoc; [exact F|]. now constructor.
  - destruct (IH H) as (R & F). split; [eapply r_empty; eauto|].
    rewrite (empty_objects b1 b2 R K). eapply es_snoc; [exact F|]. constructor.
  - destruct (IH H) as (R & F). split; [eapply r_keep; eauto|].
    now rewrite (keep_objects b1 b2 R K).
Qed.

Lemma has_room_iff b A q : binv b A -> has_room b q <-> room A (rq_size q) (rq_attrs q).
Proof.
  intros I. pose proof (bi_repr _ _ I) as R. unfold has_room, room. cbv zeta.
  rewrite !(sec_limit_ok _ _ _ R), !(sec_count_ok _ _ _ R) by (auto || (unfold section_id; lia)).
  tauto.
Qed.

Lemma add_with_room hp b q : reachable any b -> good_heap hp -> request_ok b q -> has_room b q ->
  exists r b', add hp b q = Some (r, b') /\ r <> 0 /\ data_addr (b_h b') = data_addr (b_h b).
Proof.
  intros H Hh (HC & Hov) HR. destruct (reachable_inv _ _ H) as (A & I & V & _). apply (has_room_iff b A q I) in HR.
  destruct (add_all hp b A (rq_mem q) (rq_obj q) (rq_size q) (rq_type q) (rq_attrs q) Hh I V HC Hov)
    as (r & b2 & E & T & T2 & T3 & _). exists r, b2. split; [exact E|].
  assert (Hr : r <> 0) by (apply T2; auto). split; [assumption|].
  destruct (T Hr) as (ow & arrs & A' & _ & I' & _).
  rewrite (bi_addr _ _ I), (bi_addr _ _ I'). auto.
Qed.

Lemma added_reach b : added_only b -> reachable full_arrays b.
Proof.
  induction 1; [eapply r_new|eapply r_add|eapply r_write|eapply r_empty]; eauto. now apply e_reset.
Qed.

Lemma added_inv b : added_only b -> exists A, binv b A /\ bview b A /\ remappable A /\
  a_ms A = zlen (a_cells A) /\ a_mo A = zlen (a_objs A) /\ a_md A = zlen (a_dps A).
Proof.
  induction 1 as [hp pa cap b Hh Hp Hc E|hp b q r b' R (A & I & V & F & X) Hh Hq Fq E Hr
    |b i k v b' R (A & I & V & F & X1 & X2 & X3) W|b b' R E].
  - destruct (new_inv hp pa cap b Hh Hp Hc E) as (I & V & _). exists (empty 0 0 0 0).
    split; [assumption|]. split; [assumption|]. split; [apply empty_remappable|]. auto.
  - destruct (add_inv hp b A q r b' Hh I V Hq E Hr)
      as (A' & ow & arrs & _ & I' & V' & _ & _ & Y & _ & _ & Z1).
    exists A'. split; [assumption|]. split; [assumption|]. split; [auto|]. apply Z1.
    intros (R1 & R2 & _). lia.
  - destruct (write_inv b A i k v b' I V W) as (A' & I' & V' & _ & Y & M1 & M2 & M3 & _ & C & O & D).
    exists A'. rewrite M1, M2, M3, C, O, D. auto 10.
  - destruct (reachable_inv _ _ R) as (A & I & V & _).
    pose proof (buf_reset_all b A I 0 0 0 0 ltac:(lia) ltac:(lia) ltac:(lia) ltac:(lia) eq_refl) as N.
    unfold buf_reset in E. destruct (8 * tot (empty 0 0 0 0) <=? data_capacity (b_h b)).
    + destruct N as (b2 & E2 & I2 & V2). assert (b' = b2) as -> by congruence.
      exists (empty 0 0 0 0). split; [assumption|]. split; [assumption|]. split; [apply empty_remappable|]. auto.
    + congruence.
Qed.

Lemma add_fresh hp b q : added_only b -> good_heap hp ->
  memory_up_to hp (data_size (b_h b) +
    8 * (object_words (rq_size q) (rq_attrs q) + 3 + Z.of_nat (length (rq_attrs q))) + 16) ->
  request_ok b q -> exists r b', add hp b q = Some (r, b') /\ r <> 0.
Proof.
  intros H Hh HM (HC & Hov). fold (zlen (rq_attrs q)) in HM. destruct (added_inv b H) as (A & I & V & F & X1 & X2 & X3).
  destruct (add_all hp b A (rq_mem q) (rq_obj q) (rq_size q) (rq_type q) (rq_attrs q) Hh I V HC Hov)
    as (r & b2 & E & _ & T2 & _). exists r, b2. split; [exact E|]. apply T2. right.
  pose proof (call_size _ _ _ _ HC). pose proof (call_counts _ _ _ _ HC) as Hc.
  pose proof (object_words_eq (rq_size q) (rq_attrs q)).
  pose proof (attr_words_nonneg _ Hc). pose proof (words_of_bounds (rq_size q) ltac:(lia)).
  pose proof (zlen_nonneg (rq_attrs q)). pose proof (zlen_nonneg (a_objs A)).
  pose proof (zlen_nonneg (a_dps A)). pose proof (zlen_nonneg (a_cells A)).
  pose proof (ok_mg _ (re_ok _ _ _ (bi_repr _ _ I))).
  split; [lia|]. split; [lia|]. split; [lia|]. split; [|auto].
  right. right. split; [|assumption]. apply HM.
  rewrite (bi_dsize _ _ I).
  match goal with |- 0 < round8 ?x + 8 <= _ => pose proof (round8_spec x) end.
  unfold tot in *. cbn [resize a_ms a_mo a_md a_mg] in *. lia.
Qed.

(* ------------------------------------------------------------------ *)
(* remapping a block that was copied elsewhere *)
Lemma repr_copy B m A m' : repr B m A -> copy_of m m' -> repr B m' A.
Proof.
  intros R (C & L). rewrite (re_1 _ _ _ R) in *. pose proof (re_ok _ _ _ R) as OK.
  pose proof (ok_bounds A OK) as (Bc & Bo & Bd & Bg).
  pose proof (layout A OK) as (L3 & L4 & L5 & L6 & Lt & N3 & N4 & N5 & N6).
  fold (wlen m') in L.
  assert (G : forall i, 0 <= i < tot A -> word m' i = word m i) by (intros; apply C; lia).
  pose proof (re_h _ _ _ R) as H. split; [split|..].
  - assumption.
  - apply H.
  - lia.
  - rewrite G by lia. apply H.
  - rewrite G by lia. apply H.
  - rewrite G by lia. apply H.
  - intros id Hid. pose proof Hid as Hid'. rewrite G by (secs Hid; lia). now apply (hr_sec _ _ _ H).
  - intros id Hid. pose proof (spos_bounds A id OK Hid). rewrite G by lia. now apply (hr_max _ _ _ H).
  - intros id Hid. pose proof (spos_bounds A id OK Hid). rewrite G by lia. now apply (hr_num _ _ _ H).
  - intros k c Hk. assert (K : (k < length (a_cells A))%nat) by (apply nth_error_Some; congruence).
    unfold zlen in *. rewrite G by lia. now apply (re_cell _ _ _ R).
  - intros i s n t Hi. assert (K : (i < length (a_objs A))%nat) by (apply nth_error_Some; congruence).
    unfold zlen in *. rewrite !G by lia. now apply (re_obj _ _ _ R).
  - intros j k Hj. assert (K : (j < length (a_dps A))%nat) by (apply nth_error_Some; congruence).
    unfold zlen in *. rewrite G by lia. now apply (re_dp _ _ _ R).
Qed.

Lemma remap_copy b m' : reachable any b -> copy_of (b_mem b) m' ->
  0 < mbase m' -> mbase m' mod 8 = 0 -> mbase m' + data_size (b_h b) < 2 ^ 64 ->
  exists t m'', mb_remap m' (mbase m') = Some (t, m'') /\
    (t = true <-> mbase m' = data_addr (b_h b) \/ no_end_pointer (b_mem b)) /\
    (t = true -> content m'' = objects b /\ layout_ok m'' /\ stored_base m'' = mbase m' /\
       needs_remapping m'' (mbase m') = Some false /\
       mb_remap m'' (mbase m') = Some (true, m'')) /\
    mbase m'' = mbase m' /\ length (mwords m'') = length (mwords m') /\
    (forall i, data_size (b_h b) <= 8 * i -> word m'' i = word m' i).
Proof.
  intros H C P Q T. destruct (reachable_inv _ _ H) as (A & I & V & _). pose proof (bi_repr _ _ I) as R.
  rewrite (bi_dsize _ _ I) in *.
  pose proof (repr_copy _ _ _ _ R C) as R'.
  assert (Hb : base_ok (mbase m') A) by (split; [assumption|]; split; [assumption|lia]).
  destruct (mb_remap_all _ (mbase m') A Hb m' R' eq_refl) as (t & m'' & E & Ht & Rt & (F1 & F2 & F3)).
  exists t, m''. split; [exact E|]. split; [|split; [|split; [assumption|split]]].
  - rewrite Ht, (remappable_iff _ _ _ R), (bi_addr _ _ I). split; intros [X|X]; auto.
  - intros ->. specialize (Rt eq_refl). rewrite (objects_eq b A I). split; [apply (content_ok _ _ _ Rt)|].
    split; [apply (layout_of _ _ _ Rt)|]. split; [apply (re_0 _ _ _ Rt)|].
    assert (Rt' : repr (mbase m'') m'' A) by (rewrite F1; exact Rt). rewrite <- F1.
    split; [apply (needs_remapping_ok _ _ (re_h _ _ _ Rt'))|].
    unfold mb_remap. rewrite (addr_offset_ok _ _ _ (re_base _ _ _ Rt') _ (re_h _ _ _ Rt') eq_refl). cbn [bind].
    now rewrite Z.sub_diag.
  - unfold wlen in F2. lia.
  - intros i Hi. pose proof (re_ok _ _ _ R) as OK. pose proof (ok_bounds A OK). apply F3; unfold tot in *; lia.
Qed.

Lemma remap_self b : reachable any b ->
  mb_remap (b_mem b) (data_addr (b_h b)) = Some (true, b_mem b) /\
  buf_remap b = Some (true, b) /\
  needs_remapping (b_mem b) (data_addr (b_h b)) = Some false.
Proof.
  intros H. destruct (reachable_inv _ _ H) as (A & I & V & _). pose proof (bi_repr _ _ I) as R. rewrite (bi_addr _ _ I).
  split; [|split; [now apply (buf_remap_ok b A)|apply (needs_remapping_ok _ _ (re_h _ _ _ R))]].
  unfold mb_remap. rewrite (addr_offset_ok _ _ _ (re_base _ _ _ R) _ (re_h _ _ _ R) eq_refl). cbn [bind].
  now rewrite Z.sub_diag.
Qed.

(* ------------------------------------------------------------------ *)
(* reserving *)
Lemma limits_eq b A : binv b A -> limits (b_mem b) = [a_ms A; a_mo A; a_md A; a_mg A].
Proof.
  intros I. unfold limits. cbn [map].
  rewrite !(sec_limit_ok _ _ _ (bi_repr _ _ I)) by (unfold section_id; lia). reflexivity.
Qed.

Lemma counts_eq b A : binv b A ->
  counts (b_mem b) = [zlen (a_cells A); zlen (a_objs A); zlen (a_dps A); 0].
Proof.
  intros I. unfold counts. cbn [map].
  rewrite !(sec_count_ok _ _ _ (bi_repr _ _ I)) by auto. reflexivity.
Qed.

Lemma reserve_done hp b no ns nd ng b' : reachable any b -> good_heap hp -> limits_ok no ns nd ng ->
  buf_reserve hp b no ns nd ng = Some (true, b') ->
  objects b' = objects b /\ counts (b_mem b') = counts (b_mem b) /\
  limits (b_mem b') = [ns; no; nd; ng] /\ layout_ok (b_mem b').
Proof.
  intros H Hh L E. destruct (reachable_inv _ _ H) as (A & I & V & _).
  destruct (limits_tot no ns nd ng A L) as (L1 & L2 & L3 & L4 & L5 & _).
  destruct (buf_reserve_all hp b A Hh I no ns nd ng L1 L2 L3 L4 L5) as (r & b2 & E2 & T & _).
  rewrite E in E2. assert (true = r) as <- by congruence. assert (b' = b2) as -> by congruence.
  destruct (T eq_refl) as (I2 & V2 & _).
  rewrite (objects_eq b A I), (objects_eq b2 _ I2), (limits_eq b2 _ I2), (counts_eq b A I),
    (counts_eq b2 _ I2).
  split; [reflexivity|]. split; [reflexivity|]. split; [reflexivity|].
  apply (layout_of _ _ _ (bi_repr _ _ I2)).
Qed.

Lemma reserve_defined hp b no ns nd ng : reachable any b -> good_heap hp -> limits_ok no ns nd ng ->
  exists r b', buf_reserve hp b no ns nd ng = Some (r, b').
Proof.
  intros H Hh L. destruct (reachable_inv _ _ H) as (A & I & V & _).
  destruct (limits_tot no ns nd ng A L) as (L1 & L2 & L3 & L4 & L5 & _).
  destruct (buf_reserve_all hp b A Hh I no ns nd ng L1 L2 L3 L4 L5) as (r & b2 & E2 & T & _). eauto.
Qed.

Lemma reserve_grows hp b no ns nd ng : reachable any b -> good_heap hp -> limits_ok no ns nd ng ->
  Forall2 Z.le (limits (b_mem b)) [ns; no; nd; ng] -> limits (b_mem b) <> [ns; no; nd; ng] ->
  no_end_pointer (b_mem b) -> memory_up_to hp (length_for no ns nd ng + 16) ->
  exists b', buf_reserve hp b no ns nd ng = Some (true, b').
Proof.
  intros H Hh L F N NE HM. destruct (reachable_inv _ _ H) as (A & I & V & _).
  rewrite (limits_eq b A I) in F, N. apply (remappable_iff _ _ _ (bi_repr _ _ I)) in NE.
  repeat match goal with X : Forall2 _ (_ :: _) _ |- _ => inversion X; subst; clear X end.
  destruct (limits_tot no ns nd ng A L) as (L1 & L2 & L3 & L4 & L5 & _).
  destruct (buf_reserve_all hp b A Hh I no ns nd ng L1 L2 L3 L4 L5) as (r & b2 & E2 & _ & T & _).
  exists b2. rewrite E2. repeat f_equal. apply T; auto.
  - intros EA. apply N. pose proof (f_equal a_ms EA) as Y1. pose proof (f_equal a_mo EA) as Y2.
    pose proof (f_equal a_md EA) as Y3. pose proof (f_equal a_mg EA) as Y4.
    cbn [resize a_ms a_mo a_md a_mg] in Y1, Y2, Y3, Y4. congruence.
  - right. right. split; [|assumption]. apply HM.
    match goal with |- 0 < round8 ?x + 8 <= _ => pose proof (round8_spec x) end.
    unfold length_for, tot in *. cbn [resize a_ms a_mo a_md a_mg] in *. lia.
Qed.

Lemma reserve_same hp b no ns nd ng : reachable any b -> good_heap hp -> limits_ok no ns nd ng ->
  limits (b_mem b) = [ns; no; nd; ng] -> buf_reserve hp b no ns nd ng = Some (false, b).
Proof.
  intros H Hh L N. destruct (reachable_inv _ _ H) as (A & I & V & _). rewrite (limits_eq b A I) in N.
  destruct (limits_tot no ns nd ng A L) as (L1 & L2 & L3 & L4 & L5 & _).
  destruct (buf_reserve_all hp b A Hh I no ns nd ng L1 L2 L3 L4 L5) as (r & b2 & E2 & _ & _ & T & _).
  assert (EA : resize A ns no nd ng = A).
  { injection N as <- <- <- <-. apply resize_same. }
  destruct (T EA) as (-> & ->). exact E2.
Qed.

Lemma reserve_no_memory hp b no ns nd ng : reachable any b -> good_heap hp -> limits_ok no ns nd ng ->
  (forall n, h_malloc hp n = 0) -> p_capacity (b_pool b) < length_for no ns nd ng ->
  buf_reserve hp b no ns nd ng = Some (false, b).
Proof.
  intros H Hh L HM C. destruct (reachable_inv _ _ H) as (A & I & V & _).
  destruct (limits_tot no ns nd ng A L) as (L1 & L2 & L3 & L4 & L5 & _).
  destruct (buf_reserve_all hp b A Hh I no ns nd ng L1 L2 L3 L4 L5) as (r & b2 & E2 & _ & _ & _ & T & _).
  pose proof (bi_cap _ _ I). pose proof (bi_room _ _ I).
  assert (Et : 8 * tot (resize A ns no nd ng) = length_for no ns nd ng) by reflexivity.
  rewrite Et in T.
  destruct T as (-> & ->); [lia|assumption|apply HM|exact E2].
Qed.

Lemma reserve_too_small hp b no ns nd ng : reachable any b -> good_heap hp -> limits_ok no ns nd ng ->
  length_for no ns nd ng <= data_capacity (b_h b) ->
  ~ Forall2 Z.le (counts (b_mem b)) [ns; no; nd; ng] ->
  buf_reserve hp b no ns nd ng = Some (false, b).
Proof.
  intros H Hh L C N. destruct (reachable_inv _ _ H) as (A & I & V & _). rewrite (counts_eq b A I) in N.
  destruct (limits_tot no ns nd ng A L) as (L1 & L2 & L3 & L4 & L5 & _).
  pose proof (bi_repr _ _ I) as R. pose proof (re_h _ _ _ R) as Hr.
  pose proof (bi_flags _ _ I) as FL. pose proof (bi_ds _ _ I) as DS.
  assert (Et : 8 * tot (resize A ns no nd ng) = length_for no ns nd ng) by reflexivity.
  unfold buf_reserve. rewrite fl_uses, fl_modify by assumption. cbn [andb].
  unfold SLOTS_ID, OBJECTS_ID, DATAPTRS_ID, GARBAGE_ID. rewrite (bi_addr _ _ I).
  rewrite !(section_max_num_ok _ _ Hr) by auto. cbn [bind].
  match goal with |- (if ?c then _ else _) = _ => destruct c; [|reflexivity] end.
  assert (Ec : calc_buffer_length (b_mem b) (mbase (b_mem b)) no ns nd ng = Some (length_for no ns nd ng)).
  { unfold calc_buffer_length. rewrite (header_length_ok _ _ Hr). cbn [bind].
    unfold SLOTS_ID, OBJECTS_ID, DATAPTRS_ID, GARBAGE_ID.
    unfold tot in Et, L5. cbn [resize a_ms a_mo a_md a_mg] in Et, L5.
    rewrite !calc_section_size_ok
      by (auto; try lia; unfold entity_size; cbn [Z.eqb Pos.eqb]; lia).
    unfold entity_size. cbn [Z.eqb Pos.eqb].
    rewrite (u64_id (64 + _)) by lia. rewrite (u64_id (_ + (16 + 24 * no))) by lia.
    rewrite (u64_id (_ + (16 + 8 * nd))) by lia. rewrite (u64_id (_ + (16 + 16 * ng))) by lia.
    f_equal. unfold length_for. lia. }
  rewrite Ec. cbn [bind]. rewrite ltb_false by lia. cbn [bind].
  rewrite ltb_false by lia. cbn [negb andb].
  rewrite (bi_addr _ _ I).
  unfold mb_reserve, SLOTS_ID, OBJECTS_ID, DATAPTRS_ID, GARBAGE_ID.
  rewrite !(section_max_num_ok _ _ Hr), !(section_num_ok _ _ Hr), (buffer_length_ok _ _ Hr) by auto.
  cbn [bind].
  match goal with |- context [if ?c then _ else Some (false, None, b_mem b)] => destruct c eqn:Ef end.
  - exfalso. apply N.
    repeat match goal with X : (_ && _)%bool = true |- _ => apply andb_prop in X as (X & ?) end.
    rewrite ?Z.leb_le in *.
    change (snum A 3) with (zlen (a_cells A)) in *. change (snum A 4) with (zlen (a_objs A)) in *.
    change (snum A 5) with (zlen (a_dps A)) in *. change (snum A 6) with 0 in *.
    repeat constructor; assumption.
  - cbn [bind]. destruct b; reflexivity.
Qed.

Lemma add_no_memory hp b q : reachable any b -> good_heap hp -> request_ok b q ->
  (forall n, h_malloc hp n = 0) -> ~ has_room b q ->
  p_capacity (b_pool b) < length_for (sec_count (b_mem b) 4 + 1)
    (sec_count (b_mem b) 3 + object_words (rq_size q) (rq_attrs q))
    (sec_count (b_mem b) 5 + Z.of_nat (length (rq_attrs q))) (sec_limit (b_mem b) 6) ->
  add hp b q = Some (0, b).
Proof.
  intros H Hh (HC & Hov) HM HR C. destruct (reachable_inv _ _ H) as (A & I & V & _). rewrite (has_room_iff b A q I) in HR.
  pose proof (bi_repr _ _ I) as R.
  rewrite !(sec_limit_ok _ _ _ R), !(sec_count_ok _ _ _ R) in C by (auto || (unfold section_id; lia)).
  destruct (add_all hp b A (rq_mem q) (rq_obj q) (rq_size q) (rq_type q) (rq_attrs q) Hh I V HC Hov)
    as (r & b2 & E & _ & _ & _ & T & _).
  pose proof (bi_cap _ _ I). pose proof (bi_room _ _ I).
  destruct T as (-> & ->); [| |apply HM|assumption|exact E].
  - match goal with |- _ < 8 * tot ?x => change (8 * tot x) with
      (length_for (zlen (a_objs A) + 1) (zlen (a_cells A) + object_words (rq_size q) (rq_attrs q))
        (zlen (a_dps A) + zlen (rq_attrs q)) (a_mg A)) end.
    change (snum A 3) with (zlen (a_cells A)) in C. change (snum A 4) with (zlen (a_objs A)) in C.
    change (snum A 5) with (zlen (a_dps A)) in C. change (smax A 6) with (a_mg A) in C.
    fold (zlen (rq_attrs q)) in C. lia.
  - exact C.
Qed.

(* ------------------------------------------------------------------ *)
(* order of the block *)
Lemma in_order b : reachable any b ->
  layout_ok (b_mem b) /\ data_addr (b_h b) = stored_base (b_mem b) /\
  data_addr (b_h b) = mbase (b_mem b) /\
  data_size (b_h b) = word (b_mem b) 1 /\ data_size (b_h b) <= data_capacity (b_h b) /\
  data_capacity (b_h b) <= 8 * Z.of_nat (length (mwords (b_mem b))).
Proof.
  intros H. destruct (reachable_inv _ _ H) as (A & I & V & _). pose proof (bi_repr _ _ I) as R.
  pose proof (bi_facts b A I) as (P & Q & T16 & Tw & Cw & Cw' & Sz & Se & Sw).
  split; [apply (layout_of _ _ _ R)|]. unfold stored_base. rewrite (re_0 _ _ _ R), (re_1 _ _ _ R).
  rewrite (bi_addr _ _ I), (bi_dsize _ _ I).
  split; [reflexivity|]. split; [reflexivity|]. split; [reflexivity|].
  fold (wlen (b_mem b)). pose proof (bi_cap _ _ I). pose proof (bi_fit _ _ I).
  pose proof (bi_len _ _ I). pose proof (bi_room _ _ I). pose proof (bi_mod _ _ I) as M.
  apply mod8_eq in M. split; [lia|].
  assert (p_size (b_pool b) / 8 <= p_capacity (b_pool b) / 8) by (apply Z.div_le_mono; lia). lia.
Qed.

(* ------------------------------------------------------------------ *)
(* emptying *)
Lemma emptied b b' : reachable any b -> empties b b' -> objects b' = [] /\ layout_ok (b_mem b').
Proof.
  intros H E. destruct (reachable_inv _ _ H) as (A & I & V & _). destruct (empties_inv b A b' I V E) as (ms & mo & md & mg & I' & V').
  rewrite (objects_eq _ _ I'). split; [reflexivity|]. apply (layout_of _ _ _ (bi_repr _ _ I')).
Qed.

Lemma cleared b z : reachable any b -> exists b', buf_clear b z = Some (true, b') /\
  objects b' = [] /\ limits (b_mem b') = limits (b_mem b) /\ counts (b_mem b') = [0; 0; 0; 0] /\
  data_addr (b_h b') = data_addr (b_h b) /\ data_capacity (b_h b') = data_capacity (b_h b).
Proof.
  intros H. destruct (reachable_inv _ _ H) as (A & I & V & _). destruct (buf_clear_ok b A I z V) as (b' & E & I' & V').
  exists b'. split; [exact E|]. rewrite (objects_eq _ _ I'), (limits_eq _ _ I'), (limits_eq _ _ I),
    (counts_eq _ _ I'). split; [reflexivity|]. split; [reflexivity|]. split; [reflexivity|].
  unfold buf_clear in E. destruct (has_datastore (b_h b) && allow_clear (b_h b)); [|discriminate].
  destruct (mb_clear (b_mem b) (data_addr (b_h b)) z) as [m'|]; [|discriminate]. cbn [bind] in E.
  assert (b' = Buffer (set_num_objects (b_h b) 0) (b_pool b) m') as -> by congruence.
  split; reflexivity.
Qed.

Lemma reset_done b no ns nd ng : reachable any b -> limits_ok no ns nd ng ->
  if length_for no ns nd ng <=? data_capacity (b_h b) then
    exists b', buf_reset_detailed b no ns nd ng = Some (true, b') /\ objects b' = [] /\
      limits (b_mem b') = [ns; no; nd; ng] /\ counts (b_mem b') = [0; 0; 0; 0] /\
      data_addr (b_h b') = data_addr (b_h b) /\ data_capacity (b_h b') = data_capacity (b_h b)
  else buf_reset_detailed b no ns nd ng = Some (false, b).
Proof.
  intros H L. destruct (reachable_inv _ _ H) as (A & I & V & _).
  destruct (limits_tot no ns nd ng A L) as (L1 & L2 & L3 & L4 & _ & L5).
  pose proof (buf_reset_all b A I no ns nd ng L1 L2 L3 L4 L5) as N.
  change (8 * tot (empty ns no nd ng)) with (length_for no ns nd ng) in N.
  destruct (length_for no ns nd ng <=? data_capacity (b_h b)); [|assumption].
  destruct N as (b' & E & I' & V'). exists b'. split; [exact E|].
  rewrite (objects_eq _ _ I'), (limits_eq _ _ I'), (counts_eq _ _ I').
  split; [reflexivity|]. split; [reflexivity|]. split; [reflexivity|].
  unfold buf_reset_detailed in E.
  destruct (uses_datastore (b_h b) && allow_modify (b_h b) && allow_clear (b_h b)); [|discriminate].
  destruct (mb_init (b_mem b) (data_addr (b_h b)) no ns nd ng (data_capacity (b_h b)))
    as [[[ok len] m']|]; [|discriminate]. cbn [bind] in E.
  destruct ok, len as [len|]; try discriminate.
  destruct (objects_index_begin m' (data_addr (b_h b))) as [o|]; [|discriminate]. cbn [bind] in E.
  assert (b' = Buffer (set_view (b_h b) len o 0) (b_pool b) m') as -> by congruence. split; reflexivity.
Qed.

(* ------------------------------------------------------------------ *)
(* access by index *)
Lemma num_objects_ok b : reachable any b ->
  buf_num_objects b = Some (Z.of_nat (length (objects b))) /\
  sec_count (b_mem b) 4 = Z.of_nat (length (objects b)).
Proof.
  intros H. destruct (reachable_inv _ _ H) as (A & I & V & _). pose proof (bi_repr _ _ I) as R. rewrite (objects_eq _ _ I), acontent_length.
  unfold buf_num_objects, OBJECTS_ID. rewrite (bi_addr _ _ I).
  rewrite (section_num_ok _ _ (re_h _ _ _ R)), (sec_count_ok _ _ _ R) by auto. split; reflexivity.
Qed.

Lemma get_object_ok b i : reachable any b -> 0 <= i ->
  exists p, buf_get_object b i = Some p /\
  (i < Z.of_nat (length (objects b)) -> p <> 0 /\
     exists begin t size, entry_at b p begin t size /\
       begin = obj_begin (b_mem b) i /\ size = obj_size (b_mem b) i /\
       nth_error (objects b) (Z.to_nat i) = Some (t, obj_cells (b_mem b) i) /\
       stored_base (b_mem b) + 8 * sec_pos (b_mem b) 4 + 16 <= p /\
       p + 24 <= stored_base (b_mem b) + 8 * sec_pos (b_mem b) 4 + sec_room (b_mem b) 4) /\
  (Z.of_nat (length (objects b)) < i -> p = 0).
Proof.
  intros H Hi. destruct (num_objects_ok b H) as (N1 & N2). destruct (reachable_inv _ _ H) as (A & I & V & _).
  pose proof (bi_repr _ _ I) as R. pose proof (re_ok _ _ _ R) as OK.
  pose proof (ok_bounds A OK) as (Bc & Bo & Bd & Bg).
  pose proof (bi_facts b A I) as (P & _).
  unfold buf_get_object. rewrite N1. cbn [bind]. rewrite V.
  assert (L4 : spos A 4 = 10 + a_ms A) by reflexivity.
  rewrite eqb_false by lia. cbn [negb andb]. eexists. split; [reflexivity|]. split.
  - intros Hlt. rewrite leb_true by lia. split; [lia|].
    set (p := mbase (b_mem b) + 8 * (spos A 4 + 2) + 24 * i).
    assert (SB : stored_base (b_mem b) = mbase (b_mem b)) by apply (re_0 _ _ _ R).
    assert (W : forall d, word_at (b_mem b) (p + 8 * d) = word (b_mem b) (sec_pos (b_mem b) 4 + 2 + 3 * i + d)).
    { intros d. unfold word_at. rewrite SB, (sec_pos_ok _ _ _ R) by auto. f_equal. unfold p.
      replace (mbase (b_mem b) + 8 * (spos A 4 + 2) + 24 * i + 8 * d - mbase (b_mem b))
        with ((spos A 4 + 2 + 3 * i + d) * 8) by lia. apply Z.div_mul. lia. }
    exists (obj_begin (b_mem b) i), (obj_type (b_mem b) i), (obj_size (b_mem b) i).
    split; [|split; [reflexivity|split; [reflexivity|split]]].
    + split; [|split].
      * rewrite <- (Z.add_0_r p). change 0 with (8 * 0) at 1. rewrite W, Z.add_0_r. reflexivity.
      * change (p + 8) with (p + 8 * 1). now rewrite W.
      * change (p + 16) with (p + 8 * 2). now rewrite W.
    + unfold objects, content. rewrite nth_error_map, N2.
      rewrite zseq_nth by lia. cbn [option_map]. now rewrite Z2Nat.id by lia.
    + rewrite SB, (sec_pos_ok _ _ _ R), (sec_room_ok _ _ _ R) by auto.
      rewrite (objects_eq _ _ I), acontent_length in Hlt. fold (zlen (a_objs A)) in Hlt.
      change (entity_size 4) with 24. change (smax A 4) with (a_mo A). unfold p. lia.
  - intros Hlt. rewrite leb_false by lia. reflexivity.
Qed.

(* the address add returns is that of the entry of the new object *)
Lemma add_returns hp b q r b' : reachable any b -> good_heap hp -> request_ok b q ->
  add hp b q = Some (r, b') -> r <> 0 -> buf_get_object b' (Z.of_nat (length (objects b))) = Some r.
Proof.
  intros H Hh Hq E Hr. destruct (reachable_inv _ _ H) as (A & I & V & _).
  destruct (add_inv hp b A q r b' Hh I V Hq E Hr) as (A' & ow & arrs & OD & I' & V' & C & Er & _).
  pose proof (f_equal (@length _) C) as L. rewrite app_length, !acontent_length in L. cbn [length] in L.
  pose proof (bi_repr _ _ I') as R'. pose proof (re_ok _ _ _ R') as OK.
  pose proof (ok_bounds A' OK) as (Bc & Bo & Bd & Bg).
  pose proof (bi_facts b' A' I') as (P & _).
  unfold buf_get_object, buf_num_objects, OBJECTS_ID. rewrite (bi_addr _ _ I').
  rewrite (section_num_ok _ _ (re_h _ _ _ R')) by auto. cbn [bind]. rewrite V'.
  assert (L4 : spos A' 4 = 10 + a_ms A') by reflexivity.
  rewrite (objects_eq _ _ I), acontent_length. fold (zlen (a_objs A)).
  change (snum A' 4) with (zlen (a_objs A')).
  assert (zlen (a_objs A') = zlen (a_objs A) + 1) by (unfold zlen; lia).
  rewrite eqb_false, leb_true by lia. cbn [negb andb]. f_equal. rewrite V'. lia.
Qed.

(* ------------------------------------------------------------------ *)
(* files *)
Lemma file_round_trip hp pa b f : reachable any b -> no_end_pointer (b_mem b) -> good_heap hp ->
  pa <> 0 -> data_size (b_h b) + 64 < 2 ^ 64 -> memory_up_to hp (Z.max (data_size (b_h b)) 128 + 16) ->
  (forall b0, buf_new hp pa (data_size (b_h b)) = Some (Some b0) ->
     data_addr (b_h b0) <> data_addr (b_h b)) ->
  buf_write b = Some (Some f) ->
  exists b', buf_new_from_file hp pa f = Some (Some b') /\ objects b' = objects b /\
    reachable any b'.
Proof.
  intros H NE Hh Hp Hc HM Hd Ew. pose proof H as H0. destruct (reachable_inv _ _ H) as (A & I & V & _).
  apply (remappable_iff _ _ _ (bi_repr _ _ I)) in NE.
  pose proof (write_file b A f I Ew) as F. pose proof Hc as Hc0. pose proof Hd as Hd0.
  rewrite (bi_dsize _ _ I) in Hc, Hd, HM.
  destruct (file_tot f A _ F) as (L8 & T16 & PB).
  pose proof (new_capacity_ge (8 * tot A)) as NC.
  destruct (from_words_all hp pa A f (mbase (b_mem b)) Hh Hp F Hc) as (X & _).
  - apply HM. lia.
  - intros b0 E0. destruct (new_inv hp pa (8 * tot A) b0 Hh Hp Hc E0) as (I0 & _).
    rewrite <- (bi_addr _ _ I0), <- (bi_addr _ _ I). now apply Hd.
  - destruct (X NE) as (b' & E & I' & V'). exists b'. split; [exact E|].
    rewrite (objects_eq _ _ I'), (objects_eq _ _ I). split; [reflexivity|].
    eapply r_keep; [exact H0|]. eapply k_file; eauto.
Qed.

Lemma write_ok b : reachable any b -> exists f, buf_write b = Some (Some f) /\
  8 * Z.of_nat (length f) = data_size (b_h b).
Proof.
  intros H. destruct (reachable_inv _ _ H) as (A & I & V & _). destruct (write_all b A I) as (f & E & W). exists f. split; [exact E|].
  rewrite (bi_dsize _ _ I). destruct W as (L & _). unfold zlen in L. lia.
Qed.

Lemma normalised_ok b n : reachable any b -> no_end_pointer (b_mem b) ->
  0 < n -> n mod 8 = 0 -> n + data_size (b_h b) < 2 ^ 64 ->
  exists f b', buf_write_normalized b n = Some (true, Some f, b') /\
    objects b' = objects b /\ reachable any b' /\
    8 * Z.of_nat (length f) = data_size (b_h b) /\
    (* the file holds a block for the base address n *)
    (let m := Mem n f in content m = objects b /\ layout_ok m /\ stored_base m = n).
Proof.
  intros H NE N1 N2 N3. pose proof H as H0. destruct (reachable_inv _ _ H) as (A & I & V & _). pose proof N3 as N30.
  apply (remappable_iff _ _ _ (bi_repr _ _ I)) in NE.
  rewrite (bi_dsize _ _ I) in N3.
  destruct (write_normalized_all b A n I V) as (r & f & b' & E & F & T1 & T2).
  { split; [assumption|]. split; [assumption|lia]. }
  assert (r = true) as -> by (apply T1; auto). destruct (T2 eq_refl) as (I' & V').
  exists f, b'. split; [exact E|]. rewrite (objects_eq _ _ I'), (objects_eq _ _ I).
  split; [reflexivity|]. split; [eapply r_keep; [exact H0|]; eapply k_norm; eauto|].
  destruct F as (m0 & R & SB & L & W). unfold zlen in L. rewrite (bi_dsize _ _ I). split; [lia|].
  cbv zeta.
  assert (R2 : repr n (Mem n f) A).
  { apply (repr_copy n m0 A); [assumption|]. split.
    - rewrite (re_1 _ _ _ R). intros i Hi. unfold word at 1. cbn [mwords].
      apply W. lia.
    - rewrite (re_1 _ _ _ R). cbn [mwords]. lia. }
  split; [apply (content_ok _ _ _ R2)|]. split; [apply (layout_of _ _ _ R2)|apply (re_0 _ _ _ R2)].
Qed.

Lemma normalised_round_trip hp pa b n f b' : reachable any b -> no_end_pointer (b_mem b) ->
  0 < n -> n mod 8 = 0 -> n + data_size (b_h b) < 2 ^ 64 ->
  buf_write_normalized b n = Some (true, Some f, b') ->
  good_heap hp -> pa <> 0 -> data_size (b_h b) + 64 < 2 ^ 64 -> 
  memory_up_to hp (Z.max (data_size (b_h b)) 128 + 16) ->
  (forall b0, buf_new hp pa (data_size (b_h b)) = Some (Some b0) -> data_addr (b_h b0) <> n) ->
  exists b2, buf_new_from_file hp pa f = Some (Some b2) /\ objects b2 = objects b /\
    layout_ok (b_mem b2) /\ buf_num_objects b2 = Some (Z.of_nat (length (objects b))).
Proof.
  intros H NE N1 N2 N3 E Hh Hp Hc HM Hd. destruct (reachable_inv _ _ H) as (A & I & V & _).
  apply (remappable_iff _ _ _ (bi_repr _ _ I)) in NE.
  rewrite (bi_dsize _ _ I) in N3, Hc, Hd, HM.
  destruct (write_normalized_all b A n I V) as (r & f2 & b2 & E2 & F & _ & _).
  { split; [assumption|]. split; [assumption|lia]. }
  rewrite E in E2. assert (f = f2) as <- by congruence.
  destruct (file_tot f A _ F) as (L8 & T16 & PB).
  pose proof (new_capacity_ge (8 * tot A)) as NC.
  destruct (from_words_all hp pa A f n Hh Hp F Hc) as (X & _).
  - apply HM. lia.
  - intros b0 E0. destruct (new_inv hp pa (8 * tot A) b0 Hh Hp Hc E0) as (I0 & _).
    rewrite <- (bi_addr _ _ I0). now apply Hd.
  - destruct (X NE) as (b3 & E3 & I3 & V3). exists b3. split; [exact E3|].
    rewrite (objects_eq _ _ I3), (objects_eq _ _ I). split; [reflexivity|].
    split; [apply (layout_of _ _ _ (bi_repr _ _ I3))|].
    unfold buf_num_objects, OBJECTS_ID. rewrite (bi_addr _ _ I3).
    rewrite (section_num_ok _ _ (re_h _ _ _ (bi_repr _ _ I3))) by auto. rewrite acontent_length. reflexivity.
Qed.

Lemma read_ok hp b0 b f : reachable any b0 -> reachable any b -> no_end_pointer (b_mem b) ->
  data_size (b_h b) <= data_capacity (b_h b0) -> data_addr (b_h b0) <> data_addr (b_h b) ->
  buf_write b = Some (Some f) ->
  exists r b', buf_read hp b0 f = Some (r, b') /\ objects b' = objects b /\ layout_ok (b_mem b') /\
    buf_num_objects b' = Some (Z.of_nat (length (objects b))) /\ r = false.
Proof.
  intros H0 H NE C D E. destruct (reachable_inv _ _ H) as (A & I & V & _). destruct (reachable_inv _ _ H0) as (A0 & I0 & V0 & _).
  apply (remappable_iff _ _ _ (bi_repr _ _ I)) in NE.
  pose proof (write_file b A f I E) as F.
  rewrite (bi_dsize _ _ I) in C. rewrite (bi_addr _ _ I), (bi_addr _ _ I0) in D.
  destruct (read_words_all hp b0 A0 A f (mbase (b_mem b)) I0 F C NE D) as (b' & E' & I' & V').
  exists false, b'. split; [exact E'|]. rewrite (objects_eq _ _ I'), (objects_eq _ _ I).
  split; [reflexivity|]. split; [apply (layout_of _ _ _ (bi_repr _ _ I'))|]. split; [|reflexivity].
  unfold buf_num_objects, OBJECTS_ID. rewrite (bi_addr _ _ I').
  rewrite (section_num_ok _ _ (re_h _ _ _ (bi_repr _ _ I'))) by auto. rewrite acontent_length. reflexivity.
Qed.

Lemma copy_ok hp pa b : reachable any b -> no_end_pointer (b_mem b) -> good_heap hp -> pa <> 0 ->
  data_capacity (b_h b) + 64 < 2 ^ 64 -> 
  memory_up_to hp (Z.max (data_capacity (b_h b)) 128 + 16) ->
  exists b', buf_new_from_copy hp pa b = Some (Some b') /\ objects b' = objects b /\ reachable any b'.
Proof.
  intros H NE Hh Hp Hc HM. pose proof H as H0. destruct (reachable_inv _ _ H) as (A & I & V & _).
  apply (remappable_iff _ _ _ (bi_repr _ _ I)) in NE.
  destruct (from_copy_all hp pa b A Hh Hp I Hc) as (_ & X & _).
  destruct X as (b' & E & I' & V'); [apply HM; pose proof (new_capacity_ge (data_capacity (b_h b))); lia|assumption|].
  exists b'. split; [exact E|]. rewrite (objects_eq _ _ I'), (objects_eq _ _ I). split; [reflexivity|].
  eapply r_keep; [exact H0|]. eapply k_copy; eauto.
Qed.

(* ------------------------------------------------------------------ *)
(* failed calls *)
Lemma in_zseq i n : In i (zseq n) -> 0 <= i < n.
Proof.
  unfold zseq. rewrite in_map_iff. intros (k & <- & Hk). apply in_seq in Hk. lia.
Qed.

Lemma content_frame B m A m' : repr B m A ->
  frame m m' (fun j => spos A 5 + zuse A 5 <= j) -> content m' = content m.
Proof.
  intros R (_ & _ & F). pose proof (re_ok _ _ _ R) as OK.
  pose proof (ok_bounds A OK) as (Bc & Bo & Bd & Bg).
  pose proof (layout A OK) as (L3 & L4 & L5 & L6 & Lt & N3 & N4 & N5 & N6).
  pose proof (zuse_eq A) as (U3 & U4 & U5 & U6).
  assert (G : forall j, 0 <= j < spos A 5 + 2 + zlen (a_dps A) -> word m' j = word m j)
    by (intros; apply F; lia).
  assert (SB : stored_base m' = stored_base m) by (unfold stored_base; apply G; lia).
  assert (SP : forall id, 3 <= id <= 5 -> sec_pos m' id = sec_pos m id)
    by (intros; unfold sec_pos; rewrite SB, G by lia; reflexivity).
  assert (C4 : sec_count m' 4 = sec_count m 4).
  { unfold sec_count. rewrite SP by lia. apply G. rewrite (sec_pos_ok B m A R) by auto. lia. }
  assert (C5 : sec_count m' 5 = sec_count m 5).
  { unfold sec_count. rewrite SP by lia. apply G. rewrite (sec_pos_ok B m A R) by auto. lia. }
  assert (DP : data_pointers m' = data_pointers m).
  { unfold data_pointers. rewrite C5, SP by lia. apply map_ext_in. intros j Hj. apply in_zseq in Hj.
    rewrite (sec_count_ok B m A R) in Hj by auto. rewrite N5 in Hj.
    apply G. rewrite (sec_pos_ok B m A R) by auto. lia. }
  unfold content. rewrite C4. apply map_ext_in. intros i Hi. apply in_zseq in Hi.
  destruct (obj_nth B m A R i Hi) as (s & n & t & E & Eb & _ & Es).
  rewrite (sec_count_ok B m A R) in Hi by auto. rewrite N4 in Hi.
  pose proof (chain_nth _ _ _ _ _ _ _ (ok_chain _ OK) E) as (X1 & X2 & X3).
  assert (W : forall d, 0 <= d < 3 -> word m' (sec_pos m' 4 + 2 + 3 * i + d) = word m (sec_pos m 4 + 2 + 3 * i + d)).
  { intros d Hd. rewrite SP by lia. apply G. rewrite (sec_pos_ok B m A R) by auto. lia. }
  assert (Ob : obj_begin m' i = obj_begin m i)
    by (unfold obj_begin; pose proof (W 0 ltac:(lia)) as X; rewrite !Z.add_0_r in X; exact X).
  assert (Os : obj_size m' i = obj_size m i) by (unfold obj_size; apply W; lia).
  unfold obj_type. rewrite (W 1) by lia. f_equal.
  unfold obj_cells. rewrite Os, Es, Z.mul_comm, Z.div_mul by lia. apply map_ext_in.
  intros k Hk. apply in_zseq in Hk. unfold obj_cell. rewrite Ob, DP.
  assert (WA : word_at m' (obj_begin m i + 8 * k) = word_at m (obj_begin m i + 8 * k)).
  { unfold word_at. rewrite SB. apply G. unfold stored_base. rewrite (re_0 _ _ _ R), Eb.
    replace (B + 80 + 8 * s + 8 * k - B) with ((10 + s + k) * 8) by lia. rewrite Z.div_mul by lia. lia. }
  now rewrite WA.
Qed.

Lemma failed_keeps A b' : failed A b' -> objects b' = acontent A /\
  data_addr (b_h b') = mbase (b_mem b') /\ data_addr (b_h b') = stored_base (b_mem b') /\
  data_size (b_h b') = word (b_mem b') 1.
Proof.
  intros (b1 & I & Eh & Ep & F). pose proof (bi_repr _ _ I) as R. pose proof (re_ok _ _ _ R) as OK.
  pose proof (ok_bounds A OK) as (Bc & Bo & Bd & Bg).
  pose proof (layout A OK) as (L3 & L4 & L5 & L6 & Lt & N3 & N4 & N5 & N6).
  pose proof (zuse_eq A) as (U3 & U4 & U5 & U6).
  unfold objects. rewrite (content_frame _ _ _ _ R F), (content_ok _ _ _ R).
  destruct F as (F1 & F2 & F3). rewrite Eh, (bi_addr _ _ I), F1.
  split; [reflexivity|]. split; [reflexivity|]. unfold stored_base.
  rewrite !F3 by lia. rewrite (re_0 _ _ _ R), (re_1 _ _ _ R), (bi_dsize _ _ I). auto.
Qed.

Lemma reserve_failed hp b no ns nd ng b' : reachable any b -> good_heap hp -> limits_ok no ns nd ng ->
  no_end_pointer (b_mem b) \/ length_for no ns nd ng <= data_capacity (b_h b) ->
  buf_reserve hp b no ns nd ng = Some (false, b') ->
  objects b' = objects b /\ data_addr (b_h b') = mbase (b_mem b') /\
  data_addr (b_h b') = stored_base (b_mem b') /\ data_size (b_h b') = word (b_mem b') 1.
Proof.
  intros H Hh L NE E. destruct (reachable_inv _ _ H) as (A & I & V & _).
  rewrite <- (remappable_iff _ _ _ (bi_repr _ _ I)) in NE.
  destruct (limits_tot no ns nd ng A L) as (L1 & L2 & L3 & L4 & L5 & _).
  destruct (buf_reserve_all hp b A Hh I no ns nd ng L1 L2 L3 L4 L5)
    as (r & b2 & E2 & _ & _ & _ & _ & T).
  rewrite E in E2. assert (b' = b2) as <- by congruence. assert (r = false) as -> by congruence.
  rewrite (objects_eq _ _ I). apply (failed_keeps A). apply T; auto.
Qed.

Lemma add_failed hp b q b' : reachable any b -> good_heap hp -> request_ok b q ->
  no_end_pointer (b_mem b) -> add hp b q = Some (0, b') ->
  objects b' = objects b /\ data_addr (b_h b') = mbase (b_mem b') /\
  data_addr (b_h b') = stored_base (b_mem b') /\ data_size (b_h b') = word (b_mem b') 1.
Proof.
  intros H Hh (HC & Hov) NE E. destruct (reachable_inv _ _ H) as (A & I & V & _).
  rewrite <- (remappable_iff _ _ _ (bi_repr _ _ I)) in NE.
  destruct (add_all hp b A (rq_mem q) (rq_obj q) (rq_size q) (rq_type q) (rq_attrs q) Hh I V HC Hov)
    as (r & b2 & E2 & _ & _ & _ & _ & T).
  unfold add in E. rewrite E in E2. assert (r = 0) as -> by congruence.
  assert (b' = b2) as <- by congruence. destruct (T eq_refl) as (b1 & E1 & -> & NR).
  pose proof (call_size _ _ _ _ HC). pose proof (call_counts _ _ _ _ HC) as Hc.
  pose proof (object_words_eq (rq_size q) (rq_attrs q)).
  pose proof (attr_words_nonneg _ Hc). pose proof (words_of_bounds (rq_size q) ltac:(lia)).
  pose proof (zlen_nonneg (rq_attrs q)). fold (zlen (rq_attrs q)) in Hov.
  pose proof (ok_bounds A (re_ok _ _ _ (bi_repr _ _ I))) as (Bc & Bo & Bd & Bg).
  rewrite (bi_dsize _ _ I) in Hov.
  destruct (buf_reserve_all hp b A Hh I (zlen (a_objs A) + 1)
    (zlen (a_cells A) + object_words (rq_size q) (rq_attrs q)) (zlen (a_dps A) + zlen (rq_attrs q)) (a_mg A))
    as (r & b3 & E3 & _ & _ & _ & _ & X); try lia.
  { unfold tot in *. cbn [resize a_ms a_mo a_md a_mg]. lia. }
  rewrite E1 in E3. assert (b1 = b3) as <- by congruence. assert (r = false) as -> by congruence.
  rewrite (objects_eq _ _ I). apply (failed_keeps A). apply X; auto.
Qed.
