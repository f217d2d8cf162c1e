(* Buffer_reserve, Buffer_clear, Buffer_reset, Buffer_new, Buffer_refresh. *)
From Coq Require Import ZArith List Bool Lia.
From Verif Require Import MBuf Alignment MemPool Buffer MBufSpec MBufMem MBufAbs MBufRemap
  MBufReserve MBufInit BufferProofs.
Import ListNotations.
Local Open Scope Z_scope.

Section Reserve.
Variables (hp : heap) (b : buffer) (A : abs).
Hypothesis Hh : heap_ok hp.
Hypothesis I : binv b A.
Local Notation h := (b_h b).
Local Notation p := (b_pool b).
Local Notation m := (b_mem b).

(* enough memory for n bytes *)
Definition memory_for (n : Z) : Prop :=
  n <= data_capacity h \/ n <= p_capacity p \/
  h_malloc hp (round8 n + 8) <> 0 /\ remappable A.

Lemma view_ok m' A' h' : repr (mbase m') m' A' ->
  objects_index_begin m' (mbase m') = Some (mbase m' + 8 * (spos A' 4 + 2)) /\
  section_num m' (mbase m') OBJECTS_ID = Some (zlen (a_objs A')) /\
  bview (Buffer (set_view h' (8 * tot A') (mbase m' + 8 * (spos A' 4 + 2)) (zlen (a_objs A')))
           p m') A'.
Proof.
  intros R. split; [|split].
  - apply (section_data_ok _ _ (re_h _ _ _ R)). unfold OBJECTS_ID. auto.
  - rewrite (section_num_ok _ _ (re_h _ _ _ R)) by (unfold OBJECTS_ID; auto). reflexivity.
  - reflexivity.
Qed.

(* a failed call: the data of the objects were not touched *)
Definition failed (b' : buffer) : Prop :=
  exists b1, binv b1 A /\ b_h b' = b_h b1 /\ b_pool b' = b_pool b1 /\
    frame (b_mem b1) (b_mem b') (fun j => spos A 5 + zuse A 5 <= j).

Lemma failed_same : failed b.
Proof.
  exists b. split; [assumption|]. split; [reflexivity|]. split; [reflexivity|].
  split; [reflexivity|]. split; [reflexivity|]. reflexivity.
Qed.

Lemma buf_reserve_all no ns nd ng (A' := resize A ns no nd ng) :
  0 <= no -> 0 <= ns -> 0 <= nd -> 0 <= ng -> 8 * tot A' + 32 < 2 ^ 64 ->
  exists r b', buf_reserve hp b no ns nd ng = Some (r, b') /\
    (r = true -> binv b' A' /\ bview b' A' /\ fits A ns no nd ng) /\
    (A' <> A -> a_mo A <= no -> a_ms A <= ns -> a_md A <= nd -> a_mg A <= ng ->
       memory_for (8 * tot A') -> (data_capacity h < 8 * tot A' -> remappable A) -> r = true) /\
    (A' = A -> r = false /\ b' = b) /\
    (data_capacity h < 8 * tot A' -> p_capacity p < 8 * tot A' ->
       h_malloc hp (round8 (8 * tot A') + 8) = 0 -> r = false /\ b' = b) /\
    (r = false -> remappable A \/ 8 * tot A' <= data_capacity h -> failed b').
Proof.
  intros Hno Hns Hnd Hng Hov.
  pose proof (bi_facts b A I) as (P & Q & T16 & Tw & Cw & Cw' & Sz & Se & Sw).
  pose proof (bi_repr _ _ I) as R. pose proof (re_h _ _ _ R) as H. pose proof (bi_fit _ _ I) as Fit.
  pose proof (bi_flags _ _ I) as FL. pose proof (bi_ds _ _ I) as DS.
  assert (St : tot A' = 16 + ns + 3 * no + nd + 2 * ng) by reflexivity.
  unfold buf_reserve. rewrite fl_uses, fl_modify by assumption. cbn [andb].
  unfold SLOTS_ID, OBJECTS_ID, DATAPTRS_ID, GARBAGE_ID. rewrite (bi_addr _ _ I).
  rewrite !(section_max_num_ok _ _ H) by auto. cbn [bind].
  change (smax A 3) with (a_ms A). change (smax A 4) with (a_mo A).
  change (smax A 5) with (a_md A). change (smax A 6) with (a_mg A).
  destruct (negb (no =? a_mo A) || negb (ns =? a_ms A) || negb (nd =? a_md A) ||
            negb (ng =? a_mg A)) eqn:Esame.
  2:{ apply orb_false_elim in Esame as (Esame & E4). apply orb_false_elim in Esame as (Esame & E3).
      apply orb_false_elim in Esame as (E1 & E2). apply negb_false_iff in E1, E2, E3, E4.
      apply Z.eqb_eq in E1, E2, E3, E4.
      assert (EA : A' = A) by (unfold A'; rewrite E1, E2, E3, E4; apply resize_same).
      exists false, b. split; [reflexivity|]. split; [discriminate|]. split; [congruence|].
      split; [auto|]. split; [auto|]. intros _ _. apply failed_same. }
  assert (NA : A' <> A).
  { intros EA. pose proof (f_equal a_ms EA) as X1. pose proof (f_equal a_mo EA) as X2.
    pose proof (f_equal a_md EA) as X3. pose proof (f_equal a_mg EA) as X4.
    unfold A', resize in X1, X2, X3, X4. cbn in X1, X2, X3, X4.
    rewrite X1, X2, X3, X4, !Z.eqb_refl in Esame. discriminate. }
  clear Esame.
  assert (EL : calc_buffer_length m (mbase m) no ns nd ng = Some (8 * tot A')).
  { unfold calc_buffer_length. rewrite (header_length_ok _ _ H). cbn [bind].
    unfold SLOTS_ID, OBJECTS_ID, DATAPTRS_ID, GARBAGE_ID.
    rewrite !calc_section_size_ok
      by (auto; try lia; unfold entity_size; cbn [Z.eqb Pos.eqb]; lia).
    unfold entity_size. cbn [Z.eqb Pos.eqb].
    rewrite (u64_id (64 + _)) by lia. rewrite (u64_id (_ + (16 + 24 * no))) by lia.
    rewrite (u64_id (_ + (16 + 8 * nd))) by lia. rewrite (u64_id (_ + (16 + 16 * ng))) by lia.
    f_equal. lia. }
  rewrite EL. cbn [bind]. clear EL.
  (* the second half, on a buffer that is large enough *)
  assert (FIN : forall b1, binv b1 A -> 8 * tot A' <= data_capacity (b_h b1) ->
    exists r b', (if negb (data_capacity (b_h b1) <? 8 * tot A') then
        ' (ok, len, m') <- mb_reserve (b_mem b1) (data_addr (b_h b1)) no ns nd ng
                            (data_capacity (b_h b1)) ;;
        match ok : bool, len with
        | true, Some len =>
          o <- objects_index_begin m' (data_addr (b_h b1)) ;;
          n <- section_num m' (data_addr (b_h b1)) 4 ;;
          Some (true, Buffer (set_view (b_h b1) len o n) (b_pool b1) m')
        | _, _ => Some (false, Buffer (b_h b1) (b_pool b1) m')
        end
      else Some (true, b1)) = Some (r, b') /\
      (r = true -> binv b' A' /\ bview b' A' /\ fits A ns no nd ng) /\
      (a_mo A <= no -> a_ms A <= ns -> a_md A <= nd -> a_mg A <= ng -> r = true) /\
      (r = false -> failed b')).
  { intros b1 I1 C1. rewrite ltb_false by assumption. cbn [negb].
    pose proof (bi_facts b1 A I1) as (P1 & Q1 & _ & Tw1 & Cw1 & Cw1' & Sz1 & Se1 & Sw1).
    pose proof (bi_repr _ _ I1) as R1. pose proof (bi_cap _ _ I1) as Cap1.
    pose proof (bi_top _ _ I1) as Top1. rewrite (bi_addr _ _ I1).
    assert (Hcap : data_capacity (b_h b1) <= 8 * wlen (b_mem b1)) by lia.
    assert (Htop : mbase (b_mem b1) + data_capacity (b_h b1) < 2 ^ 64) by lia.
    assert (Hov' : 8 * tot (resize A ns no nd ng) < 2 ^ 64) by (fold A'; lia).
    assert (BUILD : forall m', repr (mbase (b_mem b1)) m' A' -> mbase m' = mbase (b_mem b1) ->
      wlen m' = wlen (b_mem b1) ->
      exists b', (o <- objects_index_begin m' (mbase (b_mem b1)) ;;
          n <- section_num m' (mbase (b_mem b1)) 4 ;;
          Some (true, Buffer (set_view (b_h b1) (8 * tot A') o n) (b_pool b1) m')) = Some (true, b') /\
        binv b' A' /\ bview b' A').
    { intros m' R' B' W'. rewrite <- B' in *.
      destruct (view_ok m' A' (b_h b1) R') as (V1 & V2 & V3).
      rewrite V1. cbn [bind]. change 4 with OBJECTS_ID. rewrite V2. cbn [bind].
      eexists. split; [reflexivity|]. split; [|exact V3].
      pose proof (bi_begin _ _ I1). pose proof (bi_len _ _ I1). pose proof (bi_addr _ _ I1).
      split; cbn [b_h b_pool b_mem set_view data_addr data_size data_capacity num_objects ds_addr];
        try lia; try assumption; try congruence.
      - apply (bi_mod _ _ I1).
      - apply (bi_chunk _ _ I1).
      - apply (bi_flags _ _ I1).
      - apply (bi_ds _ _ I1). }
    destruct (mb_reserve (b_mem b1) (mbase (b_mem b1)) no ns nd ng (data_capacity (b_h b1)))
      as [[[ok len] m']|] eqn:E.
    - cbn [bind]. destruct ok.
      + destruct (mb_reserve_inv _ A ns no nd ng _ R1 Hcap Htop Hns Hno Hnd Hng Hov' _ _ _ E eq_refl)
          as (F1 & F2 & F3 & F4 & F5 & F6). fold A' in F2, F3, F4. rewrite F3.
        destruct (BUILD m' F4 F5 F6) as (b' & E' & I' & V'). rewrite E'.
        exists true, b'. split; [reflexivity|]. split; [auto|]. split; [reflexivity|discriminate].
      + eexists false, _. split; [reflexivity|]. split; [discriminate|]. split.
        2:{ intros _. exists b1. split; [assumption|]. split; [reflexivity|]. split; [reflexivity|].
          cbn [b_mem].
          destruct (mb_reserve_dec A ns no nd ng (data_capacity (b_h b1)) Hng) as [(D1 & D2 & D3 & D4)|D].
          - destruct (mb_reserve_ok _ A ns no nd ng (data_capacity (b_h b1)) R1 Hcap Htop Hns Hno Hnd Hng Hov'
              D1 D2 D3 D4) as (m2 & E2 & _). rewrite E2 in E. discriminate.
          - destruct (mb_reserve_fail (b_mem b1) A ns no nd ng (data_capacity (b_h b1)))
              as (l & m2 & E2 & F2); try assumption. rewrite E2 in E.
            assert (m' = m2) as -> by congruence. exact F2. }
        intros G1 G2 G3 G4. exfalso.
        pose proof (ok_bounds A (re_ok _ _ _ R)) as (Bc & Bo & Bd & Bg).
        destruct (mb_reserve_ok _ A ns no nd ng (data_capacity (b_h b1)) R1 Hcap Htop Hns Hno Hnd Hng Hov')
          as (m2 & E2 & _).
        * unfold fits. lia.
        * rewrite Cap1. apply (bi_fit _ _ I1).
        * exact C1.
        * intros id Hid Hn3 Hlt. exfalso. pose proof (spos' A ns no nd ng) as (S3 & S4 & S5 & S6 & _).
          pose proof (layout A (re_ok _ _ _ R)) as (L3 & L4 & L5 & L6 & _).
          secs Hid; lia.
        * rewrite E2 in E. discriminate.
    - exfalso. 
      destruct (mb_reserve_dec A ns no nd ng (data_capacity (b_h b1)) Hng) as [(D1 & D2 & D3 & D4)|D].
      + destruct (mb_reserve_ok _ A ns no nd ng (data_capacity (b_h b1)) R1 Hcap Htop Hns Hno Hnd Hng Hov'
          D1 D2 D3 D4) as (m2 & E2 & _). rewrite E2 in E. discriminate.
      + destruct (mb_reserve_fail (b_mem b1) A ns no nd ng (data_capacity (b_h b1)))
          as (l & m2 & E2 & _); try assumption. rewrite E2 in E. discriminate. }
  destruct (Z.ltb_spec (data_capacity h) (8 * tot A')) as [C|C].
  - destruct (reserve_capacity_all hp b A Hh I (8 * tot A')) as
      (r & b1 & E & RT & RF & RS & RN & RM); [lia|lia|].
    rewrite E. cbn [bind]. destruct r; cbn [andb].
    + destruct (RT eq_refl) as (I1 & C1 & _).
      destruct (FIN b1 I1 C1) as (r & b' & E' & T1 & T2 & T3). exists r, b'.
      split; [exact E'|]. split; [exact T1|]. split; [auto|]. split; [intros; contradiction|].
      split; [|auto]. intros _ X Y. destruct (RM X Y) as (C' & _). discriminate.
    + exists false, b1. split; [reflexivity|]. split; [discriminate|].
      split; [|split; [intros; contradiction|split]].
      * intros _ _ _ _ _ M RE. specialize (RE C). apply RS; auto. destruct M as [M|[M|(M & _)]].
        -- lia.
        -- left. split; [|assumption]. rewrite Z.mul_comm. apply Z.mod_mul. lia.
        -- destruct (Z_le_dec (8 * tot A') (p_capacity p)).
           ++ left. split; [|assumption]. rewrite Z.mul_comm. apply Z.mod_mul. lia.
           ++ right. split; [lia|assumption].
      * intros _ X Y. destruct (RM X Y). auto.
      * intros _ X. destruct (RF eq_refl) as [->|(Y & _)]; [apply failed_same|].
        destruct X; [contradiction|lia].
  - cbn [bind andb]. destruct (FIN b I) as (r & b' & E' & T1 & T2 & T3); [lia|].
    exists r, b'. split; [exact E'|]. split; [exact T1|]. split; [auto|].
    split; [intros; contradiction|]. split; [lia|auto].
Qed.
End Reserve.

Section Simple.
Variables (b : buffer) (A : abs).
Hypothesis I : binv b A.
Local Notation h := (b_h b).
Local Notation p := (b_pool b).
Local Notation m := (b_mem b).

Lemma buf_clear_ok z : bview b A -> exists b', buf_clear b z = Some (true, b') /\
  binv b' (empty (a_ms A) (a_mo A) (a_md A) (a_mg A)) /\
  bview b' (empty (a_ms A) (a_mo A) (a_md A) (a_mg A)).
Proof.
  intros V. pose proof (bi_flags _ _ I) as FL. pose proof (bi_ds _ _ I) as DS.
  unfold buf_clear. rewrite fl_ds, fl_clear by assumption. cbn [andb].
  rewrite (bi_addr _ _ I).
  destruct (mb_clear_ok m A (bi_repr _ _ I) z) as (m' & E & R' & B' & W').
  rewrite E. cbn [bind]. eexists. split; [reflexivity|].
  pose proof (bi_addr _ _ I). pose proof (bi_begin _ _ I). pose proof (bi_len _ _ I).
  pose proof (bi_top _ _ I). split.
  - split; cbn [b_h b_pool b_mem set_view set_num_objects data_addr data_size data_capacity
      num_objects ds_addr]; try congruence; try apply I; try lia; reflexivity.
  - unfold bview in *. cbn [b_h b_mem set_num_objects set_view object_addr]. rewrite V, B'.
    reflexivity.
Qed.

Lemma buf_reset_all no ns nd ng (A' := empty ns no nd ng) :
  0 <= no -> 0 <= ns -> 0 <= nd -> 0 <= ng -> 8 * tot A' < 2 ^ 64 ->
  if 8 * tot A' <=? data_capacity h then
    exists b', buf_reset_detailed b no ns nd ng = Some (true, b') /\ binv b' A' /\ bview b' A'
  else buf_reset_detailed b no ns nd ng = Some (false, b).
Proof.
  intros Hno Hns Hnd Hng Hov.
  pose proof (bi_facts b A I) as (P & Q & T16 & Tw & Cw & Cw' & Sz & Se & Sw).
  pose proof (bi_flags _ _ I) as FL. pose proof (bi_ds _ _ I) as DS.
  pose proof (bi_repr _ _ I) as R. pose proof (bi_cap _ _ I) as Cap. pose proof (bi_top _ _ I) as Top.
  assert (Hhl : header_length m (mbase m) = Some 64) by apply (header_length_ok _ _ (re_h _ _ _ R)).
  assert (R1 : data_capacity h <= 8 * wlen m) by lia.
  assert (R2 : mbase m + data_capacity h < 2 ^ 64) by lia.
  unfold buf_reset_detailed. rewrite fl_uses, fl_modify, fl_clear by assumption. cbn [andb].
  rewrite (bi_addr _ _ I).
  destruct (Z.leb_spec (8 * tot A') (data_capacity h)) as [C|C].
  - destruct (mb_init_ok m ns no nd ng (data_capacity h)) as (m' & E & R' & B' & W'); auto.
    rewrite E. cbn [bind].
    pose proof (view_ok b m' A' (b_h b)) as V. rewrite B' in V. destruct (V R') as (V1 & _ & V3).
    rewrite V1. cbn [bind]. eexists. split; [reflexivity|].
    pose proof (bi_addr _ _ I). pose proof (bi_begin _ _ I). pose proof (bi_len _ _ I). split.
    + split; cbn [b_h b_pool b_mem set_view set_num_objects data_addr data_size data_capacity
      num_objects ds_addr]; try congruence; try apply I; try lia; try reflexivity.
      now rewrite B'.
    + unfold bview in *. cbn [b_h b_mem set_num_objects set_view object_addr]. now rewrite B'.
  - rewrite (mb_init_fail m ns no nd ng) by auto. cbn [bind]. now destruct b.
Qed.

(* Buffer_refresh and Buffer_remap on a buffer in order change nothing visible *)
Lemma buf_refresh_ok : exists b', buf_refresh b = Some (true, b') /\ binv b' A /\ bview b' A /\
  b_mem b' = m /\ b_pool b' = p.
Proof.
  pose proof (bi_facts b A I) as (P & Q & T16 & Tw & Cw & Cw' & Sz & Se & Sw).
  pose proof (bi_flags _ _ I) as FL. pose proof (bi_ds _ _ I) as DS.
  pose proof (bi_repr _ _ I) as R. pose proof (re_h _ _ _ R) as H.
  unfold buf_refresh. rewrite fl_ds, fl_remap by assumption. cbn [andb].
  rewrite (bi_addr _ _ I). rewrite eqb_false by lia. rewrite Q. change (0 =? 0) with true.
  cbn [negb andb]. rewrite (needs_remapping_ok _ _ H). cbn [bind].
  rewrite (buffer_length_ok _ _ H). cbn [bind].
  destruct (view_ok b m A h R) as (V1 & V2 & V3). rewrite V1. cbn [bind]. rewrite V2. cbn [bind].
  rewrite ltb_false by (rewrite (bi_cap _ _ I); apply (bi_fit _ _ I)).
  eexists. split; [reflexivity|]. split; [|split; [reflexivity|auto]].
  split; cbn [b_h b_pool b_mem data_addr data_size data_capacity num_objects ds_addr];
    try congruence; try apply I; try lia.
Qed.

Lemma buf_remap_ok : buf_remap b = Some (true, b).
Proof.
  pose proof (bi_facts b A I) as (P & Q & _).
  pose proof (bi_flags _ _ I) as FL. pose proof (bi_ds _ _ I) as DS.
  pose proof (bi_repr _ _ I) as R. pose proof (re_h _ _ _ R) as H.
  unfold buf_remap. rewrite fl_remap by assumption. rewrite (bi_addr _ _ I).
  rewrite (rd_base _ _ H). cbn [bind]. rewrite eqb_false by lia. now rewrite Z.eqb_refl.
Qed.
End Simple.
