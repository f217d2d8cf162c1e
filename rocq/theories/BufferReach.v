(* Every buffer that arises through the operations is in order. *)
From Coq Require Import ZArith List Bool Lia.
From Verif Require Import MBuf MBufSpec MBufMem MBufAbs MBufRemap MBufApply MBufReserve MBufInit
  MemPool Buffer BufferSpec BufferUser BufferProofs BufferReserve BufferNew BufferNorm BufferAddMem
  BufferAdd BufferAddLoop BufferAddMain BufferWrite.
Import ListNotations.
Local Open Scope Z_scope.

Lemma empty_remappable ms mo md mg : remappable (empty ms mo md mg).
Proof. intros k q H. now destruct k. Qed.

Lemma limits_tot no ns nd ng A : limits_ok no ns nd ng ->
  0 <= no /\ 0 <= ns /\ 0 <= nd /\ 0 <= ng /\ 8 * tot (resize A ns no nd ng) + 32 < 2 ^ 64 /\
  8 * tot (empty ns no nd ng) < 2 ^ 64.
Proof. intros (H1 & H2 & H3 & H4 & H5). unfold tot, resize, empty. cbn [a_ms a_mo a_md a_mg]. lia. Qed.

Lemma new_inv hp pa cap b : good_heap hp -> pa <> 0 -> cap + 64 < 2 ^ 64 ->
  buf_new hp pa cap = Some (Some b) ->
  binv b (empty 0 0 0 0) /\ bview b (empty 0 0 0 0) /\ data_capacity (b_h b) = new_capacity cap /\
  h_malloc hp (new_capacity cap + 8) <> 0.
Proof.
  intros Hh Hp Hc E. pose proof (buf_new_all hp pa cap Hh Hp Hc) as N.
  destruct (Z.eqb_spec (h_malloc hp (new_capacity cap + 8)) 0) as [M|M].
  - rewrite E in N. discriminate.
  - destruct N as (b2 & E2 & I & V & C). assert (b = b2) as -> by congruence. auto.
Qed.

(* the capacity a new buffer with these limits gets *)
Definition detailed_capacity (no ns nd ng : Z) : Z := new_capacity (136 + 8 * ns + 24 * no + 8 * nd + 8 * ng).

Lemma detailed_inv hp pa no ns nd ng flags : good_heap hp -> pa <> 0 -> new_limits_ok no ns nd ng ->
  Z.land flags F_MEMPOOL = F_MEMPOOL ->
  let cap := detailed_capacity no ns nd ng in
  if h_malloc hp (cap + 8) =? 0 then buf_new_detailed hp pa no ns nd ng flags = Some None
  else if 8 * tot (empty ns no nd ng) <=? cap then
    exists b, buf_new_detailed hp pa no ns nd ng flags = Some (Some b) /\ binv b (empty ns no nd ng) /\
      bview b (empty ns no nd ng) /\ data_capacity (b_h b) = cap
  else buf_new_detailed hp pa no ns nd ng flags = Some None.
Proof.
  intros Hh Hp (L & L') Hf cap. destruct (limits_tot no ns nd ng (empty 0 0 0 0) L) as (L1 & L2 & L3 & L4 & _ & L5).
  unfold buf_new_detailed.
  replace (u64 (64 + 16 + ns * 8 + 16 + no * 24 + 16 + nd * 8 + 16 + ng * 8 + 8))
    with (136 + 8 * ns + 24 * no + 8 * nd + 8 * ng) by (unfold u64; rewrite Z.mod_small; lia).
  pose proof (buf_allocate_all hp pa (136 + 8 * ns + 24 * no + 8 * nd + 8 * ng) Hh Hp ltac:(lia) flags Hf) as N.
  fold (detailed_capacity no ns nd ng) in N. fold cap in N.
  destruct (h_malloc hp (cap + 8) =? 0); [now rewrite N|].
  destruct N as (b & E & I & V & C). rewrite E. cbn [bind].
  pose proof (buf_reset_all b _ I no ns nd ng L1 L2 L3 L4 L5) as X. rewrite C in X.
  destruct (8 * tot (empty ns no nd ng) <=? cap).
  - destruct X as (b' & E' & I' & V'). rewrite E'. cbn [bind]. exists b'.
    split; [reflexivity|]. split; [assumption|]. split; [assumption|]. rewrite <- C.
    clear - E' I. unfold buf_reset_detailed in E'.
    destruct (uses_datastore (b_h b) && allow_modify (b_h b) && allow_clear (b_h b)); [|discriminate].
    destruct (mb_init _ _ _ _ _ _ _) as [[[[|] [l|]] m']|]; cbn [bind] in E'; try discriminate.
    destruct (objects_index_begin m' (data_addr (b_h b))); cbn [bind] in E'; [|discriminate].
    injection E' as <-. reflexivity.
  - rewrite X. reflexivity.
Qed.

Lemma keeps_inv b A b' : binv b A -> bview b A -> keeps b b' ->
  exists A', binv b' A' /\ bview b' A' /\ acontent A' = acontent A /\
    a_cells A' = a_cells A /\ a_objs A' = a_objs A /\ a_dps A' = a_dps A.
Proof.
  intros I V K.
  assert (SAME : binv b' A /\ bview b' A -> exists A', binv b' A' /\ bview b' A' /\
    acontent A' = acontent A /\ a_cells A' = a_cells A /\ a_objs A' = a_objs A /\ a_dps A' = a_dps A).
  { intros (X & Y). exists A. auto 10. }
  destruct K as [hp b no ns nd ng b' Hh L E|b r b' E|b r b' E|hp pa b b' Hh Hp Hc E
    |hp pa b f b' Hh Hp Hc Ew Hd E|b n f b' N1 N2 N3 E].
  - destruct (limits_tot no ns nd ng A L) as (L1 & L2 & L3 & L4 & L5 & _).
    destruct (buf_reserve_all hp b A Hh I no ns nd ng L1 L2 L3 L4 L5) as (r & b2 & E2 & T & _).
    rewrite E in E2. assert (true = r) as <- by congruence. assert (b' = b2) as -> by congruence.
    destruct (T eq_refl) as (I2 & V2 & _). exists (resize A ns no nd ng). auto 10.
  - apply SAME. destruct (buf_refresh_ok b A I) as (b2 & E2 & I2 & V2 & _).
    assert (b' = b2) as -> by congruence. auto.
  - apply SAME. pose proof (buf_remap_ok b A I) as E2. assert (b' = b) as -> by congruence. auto.
  - apply SAME. now apply (from_copy_all hp pa b A Hh Hp I Hc).
  - apply SAME. pose proof (write_file b A f I Ew) as F. rewrite (bi_dsize _ _ I) in *.
    destruct (file_tot f A _ F) as (L8 & T16 & PB).
    destruct (Z.eq_dec (h_malloc hp (new_capacity (8 * tot A) + 8)) 0) as [M|M].
    + exfalso. pose proof (buf_new_all hp pa (8 * tot A) Hh Hp Hc) as N. rewrite M, Z.eqb_refl in N.
      unfold buf_new_from_file in E. rewrite L8, ltb_true, N in E by lia. discriminate.
    + apply (from_words_all hp pa A f (mbase (b_mem b)) Hh Hp F Hc M); [|assumption].
      intros b0 E0. destruct (new_inv hp pa (8 * tot A) b0 Hh Hp Hc E0) as (I0 & _).
      rewrite <- (bi_addr _ _ I0), <- (bi_addr _ _ I). now apply Hd.
  - apply SAME. rewrite (bi_dsize _ _ I) in N3.
    destruct (write_normalized_all b A n I V) as (r & f2 & b2 & E2 & _ & _ & T).
    { split; [assumption|]. split; [assumption|lia]. }
    rewrite E in E2. assert (true = r) as <- by congruence. assert (b' = b2) as -> by congruence. auto.
Qed.

Lemma empties_inv b A b' : binv b A -> bview b A -> empties b b' ->
  exists ms mo md mg, binv b' (empty ms mo md mg) /\ bview b' (empty ms mo md mg).
Proof.
  intros I V K.
  destruct K as [b z r b' E|b b' E|b no ns nd ng b' L E].
  - destruct (buf_clear_ok b A I z V) as (b2 & E2 & I2 & V2). assert (b' = b2) as -> by congruence. eauto 6.
  - pose proof (buf_reset_all b A I 0 0 0 0 ltac:(lia) ltac:(lia) ltac:(lia) ltac:(lia) eq_refl) as N.
    unfold buf_reset in E.
    destruct (8 * tot (empty 0 0 0 0) <=? data_capacity (b_h b)).
    + destruct N as (b2 & E2 & I2 & V2). assert (b' = b2) as -> by congruence. eauto 6.
    + congruence.
  - destruct (limits_tot no ns nd ng A L) as (L1 & L2 & L3 & L4 & _ & L5).
    pose proof (buf_reset_all b A I no ns nd ng L1 L2 L3 L4 L5) as N.
    destruct (8 * tot (empty ns no nd ng) <=? data_capacity (b_h b)).
    + destruct N as (b2 & E2 & I2 & V2). assert (b' = b2) as -> by congruence. eauto 6.
    + congruence.
Qed.

Definition room_for (A : abs) (q : request) : Prop := room A (rq_size q) (rq_attrs q).

Lemma add_inv hp b A q r b' : good_heap hp -> binv b A -> bview b A -> request_ok b q ->
  add hp b q = Some (r, b') -> r <> 0 ->
  exists A' ow arrs, object_data (rq_mem q) (rq_obj q) (rq_size q) (rq_attrs q) ow arrs /\
    binv b' A' /\ bview b' A' /\
    acontent A' = acontent A ++ [(rq_type q, expected_object ow (rq_attrs q) arrs)] /\
    r = mbase (b_mem b') + 8 * (spos A' 4 + 2 + 3 * zlen (a_objs A)) /\
    (full_arrays q -> remappable A') /\
    a_mg A' = a_mg A /\
    (room_for A q -> a_ms A' = a_ms A /\ a_mo A' = a_mo A /\ a_md A' = a_md A) /\
    (~ room_for A q -> a_ms A' = zlen (a_cells A') /\ a_mo A' = zlen (a_objs A') /\
       a_md A' = zlen (a_dps A')).
Proof.
  intros Hh I V (HC & Hov) E Hr.
  destruct (add_all hp b A (rq_mem q) (rq_obj q) (rq_size q) (rq_type q) (rq_attrs q) Hh I V HC Hov)
    as (r2 & b2 & E2 & T & _).
  unfold add in E. rewrite E in E2. assert (r = r2) as <- by congruence.
  assert (b' = b2) as <- by congruence.
  destruct (T Hr) as (ow & arrs & A' & OD & I' & V' & C' & O' & R' & Ce & Wo & LA & SW & Zd & Mg & Ro & Nr).
  exists A', ow, arrs. split; [assumption|]. split; [assumption|]. split; [assumption|].
  split; [assumption|]. split; [assumption|].
  assert (EL : zlen (expected_object ow (rq_attrs q) arrs) = wcount ow + sumw arrs) by apply expected_length.
  assert (OW : object_words (rq_size q) (rq_attrs q) = wcount ow + sumw arrs)
    by (rewrite object_words_eq, Wo, SW; reflexivity).
  assert (Zc : zlen (a_cells A') = zlen (a_cells A) + (wcount ow + sumw arrs))
    by (rewrite Ce, zlen_app, zlen_map; lia).
  assert (Zo : zlen (a_objs A') = zlen (a_objs A) + 1) by (rewrite O', zlen_app; reflexivity).
  split; [|split; [assumption|split; [assumption|]]].
  - intros Hf k p Hk. pose proof (re_ok _ _ _ (bi_repr _ _ I)) as OK.
    rewrite Zc. pose proof (call_size _ _ _ _ HC) as Hsz.
    assert (W1 : 1 <= wcount ow).
    { rewrite Wo. unfold words_of. pose proof (Z.div_mod (rq_size q + 7) 8).
      pose proof (Z.mod_pos_bound (rq_size q + 7) 8). lia. }
    pose proof (sumw_nonneg arrs). rewrite Ce in Hk.
    destruct (Nat.lt_ge_cases k (length (a_cells A))) as [Lk|Lk].
    + rewrite nth_error_app1 in Hk by assumption. pose proof (ok_target _ OK _ _ Hk). lia.
    + rewrite nth_error_app2 in Hk by assumption. rewrite nth_error_map in Hk.
      destruct (nth_error (expected_object ow (rq_attrs q) arrs) (k - length (a_cells A))) as [c|] eqn:Ec;
        [|discriminate]. cbn [option_map] in Hk.
      apply expected_cases in Ec; auto.
      * destruct Ec as [(n & x & Hx & _ & ->)|[(_ & _ & ->)|(j & w & _ & _ & ->)]];
          cbn [abs_cell] in Hk; try discriminate.
        assert (Ep : p = zlen (a_cells A) + (wcount ow + sumw (firstn n arrs))).
        { rewrite (Z.mul_comm 8), Z.div_mul in Hk by lia. congruence. }
        enough (sumw (firstn n arrs) < sumw arrs) by lia.
        destruct OD as (_ & OD). pose proof (nth_error_In _ _ Hx) as Ix.
        clear - OD Hx Hf Ix. specialize (Hf x Ix). revert arrs OD Hx.
        generalize (rq_attrs q). revert n. intros n l; revert n.
        induction l as [|y l IH]; intros n arrs OD Hx; [now destruct n|].
        inversion OD as [|? ws ? arrs' X Y]; subst. destruct n as [|n]; cbn [nth_error] in Hx.
        -- assert (y = x) as -> by congruence. cbn [firstn]. rewrite sumw_cons. change (sumw []) with 0.
           pose proof (sumw_nonneg arrs'). destruct X as (X & _). unfold wcount in X. unfold zlen.
           rewrite X. unfold words_of. pose proof (Z.div_mod (attr_bytes x + 7) 8).
           pose proof (Z.mod_pos_bound (attr_bytes x + 7) 8). lia.
        -- cbn [firstn]. rewrite !sumw_cons. specialize (IH n arrs' Y Hx). lia.
      * apply (call_distinct _ _ _ _ HC).
      * intros x Hx. destruct (call_offsets _ _ _ _ HC x Hx) as (O1 & O2 & O3).
        rewrite Wo. split; [lia|]. split; [lia|].
        pose proof (words_of_bounds (rq_size q) ltac:(lia)). lia.
  - intros N. destruct (Nr N) as (X & Y & Z1). rewrite X, Y, Z1, Zc, Zo, Zd, OW. auto.
Qed.

Lemma reachable_inv P b : reachable P b -> exists A, binv b A /\ bview b A /\
  ((forall q, P q -> full_arrays q) -> remappable A).
Proof.
  induction 1 as [hp pa cap b Hh Hp Hc E|hp b q r b' R (A & I & V & F) Hh Hq Pq E Hr
    |b b' R (A & I & V & F) K|b b' R (A & I & V & F) K|b i k v b' R (A & I & V & F) K
    |hp pa no ns nd ng flags b Hh Hp L Hf E].
  - destruct (new_inv hp pa cap b Hh Hp Hc E) as (I & V & _). exists (empty 0 0 0 0).
    split; [assumption|]. split; [assumption|]. intros _. apply empty_remappable.
  - destruct (add_inv hp b A q r b' Hh I V Hq E Hr) as (A' & ow & arrs & _ & I' & V' & _ & _ & X & _).
    exists A'. split; [assumption|]. split; [assumption|]. intros HP. apply X. auto.
  - destruct (keeps_inv b A b' I V K) as (A' & I' & V' & _ & X & _). exists A'.
    split; [assumption|]. split; [assumption|]. intros HP. specialize (F HP).
    unfold remappable in *. now rewrite X.
  - destruct (empties_inv b A b' I V K) as (ms & mo & md & mg & I' & V').
    exists (empty ms mo md mg). split; [assumption|]. split; [assumption|]. intros _. apply empty_remappable.
  - destruct (write_inv b A i k v b' I V K) as (A' & I' & V' & _ & Re & _). exists A'.
    split; [assumption|]. split; [assumption|]. intros HP. apply Re. auto.
  - pose proof (detailed_inv hp pa no ns nd ng flags Hh Hp L Hf) as N. cbv zeta in N.
    destruct (h_malloc hp _ =? 0); [congruence|].
    destruct (8 * tot (empty ns no nd ng) <=? _); [|congruence]. destruct N as (b2 & E2 & I & V & _).
    assert (b = b2) as -> by congruence. exists (empty ns no nd ng).
    split; [assumption|]. split; [assumption|]. intros _. apply empty_remappable.
Qed.

Lemma objects_eq b A : binv b A -> objects b = acontent A.
Proof. intros I. apply (content_ok _ _ _ (bi_repr _ _ I)). Qed.

Lemma additions_inv b A l b' : binv b A -> bview b A -> additions b l b' ->
  exists A' os, binv b' A' /\ bview b' A' /\ acontent A' = acontent A ++ os /\ Forall2 stored_as l os.
Proof.
  intros I V H. induction H as [b|b l b1 hp q r b2 H IH Hh Hq E Hr|b l b1 b2 H IH K].
  - exists A, []. rewrite app_nil_r. auto.
  - destruct (IH I V) as (A1 & os & I1 & V1 & C1 & F1).
    destruct (add_inv hp b1 A1 q r b2 Hh I1 V1 Hq E Hr) as (A2 & ow & arrs & OD & I2 & V2 & C2 & _).
    exists A2, (os ++ [(rq_type q, expected_object ow (rq_attrs q) arrs)]).
    split; [assumption|]. split; [assumption|]. split; [rewrite C2, C1; now rewrite app_assoc|].
    apply Forall2_app; [assumption|]. constructor; [|constructor]. exists ow, arrs. auto.
  - destruct (IH I V) as (A1 & os & I1 & V1 & C1 & F1).
    destruct (keeps_inv b1 A1 b2 I1 V1 K) as (A2 & I2 & V2 & C2 & _).
    exists A2, os. rewrite C2. auto.
Qed.

(* ------------------------------------------------------------------ *)
(* the specification's view of a block that holds A *)
Section View.
Variables (B : Z) (m : mem) (A : abs).
Hypothesis R : repr B m A.

Lemma section_id_secid id : section_id id -> secid id.
Proof. unfold section_id, secid. lia. Qed.

Lemma entry_size_eq id : section_id id -> entry_size id = entity_size id.
Proof. intros H. apply section_id_secid in H. secs H; reflexivity. Qed.

Lemma sec_limit_ok id : section_id id -> sec_limit m id = smax A id.
Proof.
  intros H. unfold sec_limit. rewrite (sec_room_ok B m A R) by (now apply section_id_secid).
  rewrite entry_size_eq by assumption.
  replace (16 + entity_size id * smax A id - 16) with (smax A id * entity_size id) by lia.
  apply Z.div_mul. apply section_id_secid in H. secs H; discriminate.
Qed.

Lemma used_end_ok : used_end m = B + 80 + 8 * zlen (a_cells A).
Proof.
  unfold used_end. rewrite (sec_pos_ok B m A R), (sec_count_ok B m A R) by auto.
  unfold stored_base. rewrite (re_0 _ _ _ R). change (spos A 3) with 8.
  change (snum A 3) with (zlen (a_cells A)). lia.
Qed.

Lemma in_dps a : In a (data_pointers m) <-> exists k, In k (a_dps A) /\ a = B + 80 + 8 * k.
Proof.
  rewrite (data_pointers_ok B m A R), in_map_iff. split; intros (k & X & Y); exists k; auto.
Qed.

Lemma dp_target k : In k (a_dps A) -> 0 <= k < zlen (a_cells A) /\
  exists q, nth_error (a_cells A) (Z.to_nat k) = Some (Ptr q) /\ 0 <= q <= zlen (a_cells A) /\
    word_at m (B + 80 + 8 * k) = B + 80 + 8 * q.
Proof.
  intros H. pose proof (re_ok _ _ _ R) as OK. apply (ok_ptr _ OK) in H as (Hk & q & Hq).
  assert (Z.to_nat k < length (a_cells A))%nat by (apply nth_error_Some; congruence).
  split; [unfold zlen; lia|]. exists q. split; [assumption|]. split; [now apply (ok_target _ OK _ _ Hq)|].
  rewrite (word_at_ok B m A R). apply (re_cell _ _ _ R) in Hq. rewrite Z2Nat.id in Hq by assumption.
  exact Hq.
Qed.

Lemma remappable_iff : remappable A <-> no_end_pointer m.
Proof.
  pose proof (re_ok _ _ _ R) as OK. unfold remappable, no_end_pointer. rewrite used_end_ok. split.
  - intros H a Ha. apply in_dps in Ha as (k & Hk & ->).
    destruct (dp_target k Hk) as (_ & q & Hq & _ & ->). specialize (H _ _ Hq). lia.
  - intros H k q Hq.
    assert (Hk : In (Z.of_nat k) (a_dps A)).
    { apply (ok_ptr _ OK). split; [lia|]. rewrite Nat2Z.id. eauto. }
    destruct (dp_target _ Hk) as (_ & q' & Hq' & _ & E). rewrite Nat2Z.id, Hq in Hq'.
    assert (q = q') as <- by congruence.
    assert (In (B + 80 + 8 * Z.of_nat k) (data_pointers m)) as X by (apply in_dps; eauto).
    apply H in X. rewrite E in X. lia.
Qed.

Lemma obj_nth i : 0 <= i < sec_count m 4 -> exists s n t, nth_error (a_objs A) (Z.to_nat i) = Some (s, n, t) /\
  obj_begin m i = B + 80 + 8 * s /\ obj_type m i = t /\ obj_size m i = 8 * n.
Proof.
  rewrite (sec_count_ok B m A R) by auto. change (snum A 4) with (zlen (a_objs A)). unfold zlen.
  intros Hi. destruct (nth_error (a_objs A) (Z.to_nat i)) as [[[s n] t]|] eqn:E.
  - exists s, n, t. split; [reflexivity|].
    pose proof (obj_ok B m A R (Z.to_nat i) s n t E) as X. now rewrite Z2Nat.id in X by lia.
  - apply nth_error_None in E. lia.
Qed.

Lemma layout_of : layout_ok m.
Proof.
  pose proof (re_ok _ _ _ R) as OK. pose proof (ok_bounds A OK) as (Bc & Bo & Bd & Bg).
  pose proof (re_base _ _ _ R) as (P & Q & T). pose proof (re_len _ _ _ R) as L.
  pose proof (layout A OK) as (L3 & L4 & L5 & L6 & Lt & N3 & N4 & N5 & N6).
  assert (SB : stored_base m = B) by apply (re_0 _ _ _ R).
  split.
  - rewrite SB. auto.
  - intros id Hid. pose proof (section_id_secid id Hid) as Hs.
    rewrite (sec_pos_ok B m A R), (sec_room_ok B m A R), (re_1 _ _ _ R) by assumption.
    fold (wlen m). 
    secs Hs; unfold smax, entity_size; cbn [Z.eqb Pos.eqb SLOTS_ID OBJECTS_ID DATAPTRS_ID GARBAGE_ID]; lia.
  - intros id id' H H' Hne. pose proof (section_id_secid id H) as Hs. pose proof (section_id_secid id' H') as Hs'.
    rewrite !(sec_pos_ok B m A R), !(sec_room_ok B m A R) by assumption. unfold disjoint.
    secs Hs; secs Hs'; unfold smax, entity_size; cbn [Z.eqb Pos.eqb SLOTS_ID OBJECTS_ID DATAPTRS_ID GARBAGE_ID]; lia.
  - intros id H. pose proof (section_id_secid id H) as Hs.
    rewrite (sec_count_ok B m A R), (sec_room_ok B m A R), entry_size_eq by assumption.
    pose proof (snum_le A id OK Hs). secs Hs; unfold entity_size; cbn [Z.eqb Pos.eqb SLOTS_ID OBJECTS_ID DATAPTRS_ID GARBAGE_ID]; lia.
  - intros i Hi. destruct (obj_nth i Hi) as (s & n & t & E & -> & _ & ->).
    pose proof (chain_nth _ _ _ _ _ _ _ (ok_chain _ OK) E) as (X1 & X2 & X3).
    rewrite SB, (sec_pos_ok B m A R), used_end_ok by auto. rewrite L3.
    split; [lia|]. split; [lia|]. split.
    + replace (B + 80 + 8 * s) with (B + (10 + s) * 8) by lia. now rewrite Z.mod_add by lia.
    + split; [|lia]. rewrite Z.mul_comm. now rewrite Z.mod_mul by lia.
  - intros i j Hi Hj Hne. destruct (obj_nth i Hi) as (s & n & t & E & -> & _ & ->).
    destruct (obj_nth j Hj) as (s' & n' & t' & E' & -> & _ & ->). unfold disjoint.
    destruct (Z.lt_ge_cases i j) as [C|C].
    + pose proof (chain_disjoint _ _ _ (Z.to_nat i) (Z.to_nat j) _ _ _ _ _ _ (ok_chain _ OK) ltac:(lia) E E'). lia.
    + pose proof (chain_disjoint _ _ _ (Z.to_nat j) (Z.to_nat i) _ _ _ _ _ _ (ok_chain _ OK) ltac:(lia) E' E). lia.
  - intros a Ha. apply in_dps in Ha as (k & Hk & ->).
    destruct (dp_target k Hk) as (X & q & _ & Y & ->).
    rewrite SB, (sec_pos_ok B m A R), used_end_ok by auto. rewrite L3. lia.
Qed.
End View.
