(* Rebasing a block to an address it is not at (before it is written to a file). *)
From Coq Require Import ZArith List Bool Lia.
From Verif Require Import MBuf MBufSpec MBufMem MBufAbs MBufRemap.
Import ListNotations.
Local Open Scope Z_scope.

Section Loops.
Variables (b0 b1 : Z).
Hypothesis Hb1 : 0 < b1.
Local Notation off := (b1 - b0).

Lemma apply_objects_loop_ok (rest : list (Z * Z * Z)) : forall m p ns,
  0 <= p -> p + 3 * zlen rest <= wlen m -> b1 + 80 + 8 * ns < 2 ^ 64 ->
  (forall r s n t, nth_error rest r = Some (s, n, t) ->
     0 <= s <= ns /\ word m (p + 3 * Z.of_nat r) = b0 + 80 + 8 * s) ->
  exists m', apply_objects_loop (length rest) m (mbase m + 8 * p) off = Some (true, m') /\
    mbase m' = mbase m /\ wlen m' = wlen m /\
    (forall r s n t, nth_error rest r = Some (s, n, t) ->
       word m' (p + 3 * Z.of_nat r) = b1 + 80 + 8 * s) /\
    (forall j, 0 <= j -> (forall r, (r < length rest)%nat -> j <> p + 3 * Z.of_nat r) ->
       word m' j = word m j).
Proof.
  induction rest as [|[[s n] t] rest IH]; intros m p ns Hp Hl Hns He.
  - exists m. split; [reflexivity|]. split; [reflexivity|]. split; [reflexivity|].
    split; [intros r s n t Hr; destruct r; discriminate|]. auto.
  - assert (Hz : zlen ((s, n, t) :: rest) = 1 + zlen rest) by (unfold zlen; cbn [length]; lia).
    rewrite Hz in *. pose proof (zlen_nonneg rest).
    pose proof (He O s n t eq_refl) as (Hs & E0). change (Z.of_nat 0) with 0 in E0.
    rewrite Z.mul_0_r, Z.add_0_r in E0.
    cbn [length apply_objects_loop].
    rewrite (rd_ok m _ p) by lia. cbn [bind]. rewrite E0. unfold addr_shift.
    replace (b0 + 80 + 8 * s + (b1 - b0)) with (b1 + 80 + 8 * s) by lia.
    rewrite u64_id, eqb_false by lia. rewrite (wr_ok m _ p) by lia. cbn [bind].
    set (m1 := mupd m p (b1 + 80 + 8 * s)).
    assert (B1 : mbase m1 = mbase m) by reflexivity.
    assert (W1 : wlen m1 = wlen m) by (unfold m1; now rewrite mupd_wlen).
    assert (G1 : forall j, 0 <= j -> word m1 j = if j =? p then b1 + 80 + 8 * s else word m j)
      by (intros; unfold m1; now rewrite word_mupd by lia).
    clearbody m1.
    destruct (IH m1 (p + 3) ns) as (m' & E & Bm & Wm & G & F); try lia.
    { intros r s' n' t' Hr. destruct (He (S r) s' n' t' Hr) as (X & Y). split; [assumption|].
      rewrite G1, eqb_false by lia. rewrite <- Y. f_equal. lia. }
    exists m'. rewrite B1 in E. replace (mbase m + 8 * p + 24) with (mbase m + 8 * (p + 3)) by lia.
    split; [exact E|]. split; [congruence|]. split; [congruence|]. split.
    + intros r s' n' t' Hr. destruct r as [|r]; cbn [nth_error] in Hr.
      * assert (s = s') as <- by congruence. change (Z.of_nat 0) with 0. rewrite Z.mul_0_r, Z.add_0_r.
        rewrite F by (try lia; intros; lia). rewrite G1, Z.eqb_refl by lia. reflexivity.
      * rewrite <- (G r s' n' t' Hr). f_equal. lia.
    + intros j Hj Hn. rewrite F; [|assumption|].
      * rewrite G1 by assumption. rewrite eqb_false; [reflexivity|].
        pose proof (Hn O ltac:(lia)). lia.
      * intros r Hr. pose proof (Hn (S r) ltac:(lia)). lia.
Qed.

Lemma apply_dataptrs_loop_ok rest : forall m p ns,
  10 + ns <= p -> p + zlen rest <= wlen m ->
  b1 + 80 + 8 * ns < 2 ^ 64 -> mbase m = b0 -> NoDup rest ->
  (forall k, In k rest -> 0 <= k < ns /\
     exists q, 0 <= q <= ns /\ word m (10 + k) = b0 + 80 + 8 * q) ->
  (forall r k, nth_error rest r = Some k -> word m (p + Z.of_nat r) = b0 + 80 + 8 * k) ->
  exists m', apply_dataptrs_loop (length rest) m (mbase m + 8 * p) off = Some (true, m') /\
    mbase m' = mbase m /\ wlen m' = wlen m /\
    (forall r k, nth_error rest r = Some k -> word m' (p + Z.of_nat r) = b1 + 80 + 8 * k) /\
    (forall k, In k rest -> word m' (10 + k) = word m (10 + k) + off) /\
    (forall j, 0 <= j -> ~ (p <= j < p + zlen rest) -> ~ In (j - 10) rest -> word m' j = word m j).
Proof.
  induction rest as [|k rest IH]; intros m p ns Hp Hl Hns Hb Hnd Ht He.
  - exists m. split; [reflexivity|]. split; [reflexivity|]. split; [reflexivity|].
    split; [intros [|r] ? H; discriminate|]. split; [intros ? []|]. auto.
  - assert (Hz : zlen (k :: rest) = 1 + zlen rest) by (unfold zlen; cbn [length]; lia).
    rewrite Hz in *. pose proof (zlen_nonneg rest) as Hzr.
    destruct (Ht k (or_introl eq_refl)) as (Hk & q & Hq & Eq).
    pose proof (He O k eq_refl) as E0. change (Z.of_nat 0) with 0 in E0. rewrite Z.add_0_r in E0.
    cbn [length apply_dataptrs_loop].
    rewrite (rd_ok m (mbase m + 8 * p) p) by lia. cbn [bind]. rewrite E0.
    rewrite (rd_ok m (b0 + 80 + 8 * k) (10 + k)) by lia. cbn [bind]. rewrite Eq. unfold addr_shift.
    replace (b0 + 80 + 8 * k + (b1 - b0)) with (b1 + 80 + 8 * k) by lia.
    replace (b0 + 80 + 8 * q + (b1 - b0)) with (b1 + 80 + 8 * q) by lia.
    rewrite (u64_id (b1 + 80 + 8 * k)), (u64_id (b1 + 80 + 8 * q)) by lia.
    rewrite (eqb_false (b1 + 80 + 8 * k)), (eqb_false (b1 + 80 + 8 * q)) by lia. cbn [negb andb].
    rewrite (wr_ok m (b0 + 80 + 8 * k) (10 + k)) by lia. cbn [bind].
    rewrite (wr_ok (mupd m (10 + k) (b1 + 80 + 8 * q)) (mbase m + 8 * p) p)
      by (rewrite ?mupd_base, ?mupd_wlen; lia). cbn [bind].
    set (m1 := mupd (mupd m (10 + k) (b1 + 80 + 8 * q)) p (b1 + 80 + 8 * k)).
    assert (W1 : wlen m1 = wlen m) by (unfold m1; now rewrite !mupd_wlen).
    assert (B1 : mbase m1 = mbase m) by reflexivity.
    assert (G1 : forall j, 0 <= j -> word m1 j =
      if j =? p then b1 + 80 + 8 * k else if j =? 10 + k then b1 + 80 + 8 * q else word m j).
    { intros j Hj. unfold m1. rewrite !word_mupd; rewrite ?mupd_wlen; try lia; reflexivity. }
    clearbody m1.
    apply NoDup_cons_iff in Hnd as (Hni & Hnd).
    assert (GW : forall k', In k' rest -> word m1 (10 + k') = word m (10 + k')).
    { intros k' Hk'. destruct (Ht k' (or_intror Hk')). rewrite G1 by lia.
      rewrite (eqb_false _ p) by lia. rewrite eqb_false; [reflexivity|].
      intros C. apply Hni. now replace k with k' by lia. }
    destruct (IH m1 (p + 1) ns) as (m' & E & Bm & Wm & G & T & F); try lia; auto.
    + intros k' Hk'. destruct (Ht k' (or_intror Hk')) as (? & q' & ? & X).
      split; [assumption|]. exists q'. split; [assumption|]. now rewrite GW.
    + intros r k' Hr. rewrite G1 by lia. rewrite !eqb_false by lia.
      pose proof (He (S r) k' Hr) as X. rewrite <- X. f_equal. lia.
    + exists m'. rewrite B1 in E.
      replace (mbase m + 8 * p + 8) with (mbase m + 8 * (p + 1)) by lia.
      split; [exact E|]. split; [congruence|]. split; [congruence|]. split; [|split].
      * intros r k' Hr. destruct r as [|r]; cbn [nth_error] in Hr.
        -- assert (k = k') as <- by congruence. change (Z.of_nat 0) with 0. rewrite Z.add_0_r.
           rewrite F; try lia.
           ++ rewrite G1, Z.eqb_refl by lia. reflexivity.
           ++ intros C. destruct (Ht _ (or_intror C)). lia.
        -- rewrite <- (G r k' Hr). f_equal. lia.
      * intros k' [<-|Hk'].
        -- rewrite F; try lia.
           ++ rewrite G1 by lia. rewrite (eqb_false _ p), Z.eqb_refl by lia. lia.
           ++ now replace (10 + k - 10) with k by lia.
        -- rewrite T by assumption. now rewrite GW.
      * intros j Hj Hn Hi. rewrite F; try lia.
        -- rewrite G1 by assumption. rewrite eqb_false by lia.
           rewrite eqb_false; [reflexivity|]. intros C. apply Hi. left. lia.
        -- intros C. apply Hi. now right.
Qed.
End Loops.

Section Apply.
Variables (m : mem) (A : abs) (N : Z).
Local Notation B := (mbase m).
Hypothesis R : repr (mbase m) m A.
Hypothesis HN : base_ok N A.
Hypothesis HNB : N <> B.

Lemma apply_addr_offset_ok :
  exists m', apply_addr_offset m B (N - B) = Some (true, m') /\ repr N m' A /\
    mbase m' = B /\ wlen m' = wlen m.
Proof.
  pose proof (re_h _ _ _ R) as H. pose proof (hr_ok _ _ _ H) as Hok.
  pose proof (ok_bounds A Hok) as (Bc & Bo & Bd & Bg).
  pose proof (hr_base _ _ _ H) as (P & Q & T). pose proof (hr_len _ _ _ H) as Hlen.
  destruct HN as (N1 & N2 & N3).
  pose proof (layout A Hok) as (L3 & L4 & L5 & L6 & Lt & M3 & M4 & M5 & M6).
  unfold apply_addr_offset. rewrite (eqb_false B 0) by lia. rewrite Q. change (0 =? 0) with true.
  cbn [negb andb]. rewrite (needs_remapping_ok _ _ H). cbn [bind].
  rewrite (eqb_false (N - B)) by lia.
  unfold SLOTS_ID, OBJECTS_ID, DATAPTRS_ID, GARBAGE_ID.
  rewrite !(section_num_ok _ _ H) by auto. cbn [bind].
  rewrite M4, M5, M6. change (0 <? 0) with false. cbv iota. cbn [bind andb].
  (* data pointers *)
  assert (Dk : forall k, In k (a_dps A) -> 0 <= k < zlen (a_cells A) /\
    exists q, nth_error (a_cells A) (Z.to_nat k) = Some (Ptr q) /\ 0 <= q <= zlen (a_cells A)).
  { intros k Hk. apply (ok_ptr _ Hok) in Hk as (Hk & q & Hq).
    assert (Z.to_nat k < length (a_cells A))%nat by (apply nth_error_Some; congruence).
    split; [unfold zlen; lia|]. exists q. split; [assumption|]. now apply (ok_target _ Hok _ _ Hq). }
  assert (DP : exists m1, (if 0 <? zlen (a_dps A) then
      it <- section_data m B 5 ;; apply_dataptrs_loop (Z.to_nat (zlen (a_dps A))) m it (N - B)
    else Some (true, m)) = Some (true, m1) /\ mbase m1 = B /\ wlen m1 = wlen m /\
    (forall r k, nth_error (a_dps A) r = Some k -> word m1 (spos A 5 + 2 + Z.of_nat r) = N + 80 + 8 * k) /\
    (forall k, In k (a_dps A) -> word m1 (10 + k) = word m (10 + k) + (N - B)) /\
    (forall j, 0 <= j -> ~ (spos A 5 + 2 <= j < spos A 5 + 2 + zlen (a_dps A)) ->
       ~ In (j - 10) (a_dps A) -> word m1 j = word m j)).
  { destruct (Z.ltb_spec 0 (zlen (a_dps A))) as [Hd|Hd].
    - rewrite (section_data_ok _ _ H) by auto. cbn [bind]. unfold zlen at 1. rewrite Nat2Z.id.
      apply (apply_dataptrs_loop_ok B N N1 (a_dps A) m (spos A 5 + 2) (zlen (a_cells A)));
        try lia; try reflexivity.
      + apply (ok_nodup _ Hok).
      + intros k Hk. destruct (Dk k Hk) as (K & q & Hq & Hq2). split; [assumption|].
        exists q. split; [assumption|]. pose proof (re_cell _ _ _ R _ _ Hq) as X.
        rewrite Z2Nat.id in X by lia. exact X.
      + intros r k Hr. now apply (re_dp _ _ _ R).
    - exists m. split; [reflexivity|]. split; [reflexivity|]. split; [reflexivity|].
      assert (X : a_dps A = []) by (destruct (a_dps A); [reflexivity|unfold zlen in *; cbn [length] in *; lia]).
      rewrite X. split; [intros [|r] k Hr; discriminate|]. split; [intros ? []|]. auto. }
  destruct DP as (m1 & E1 & B1 & W1 & G1 & T1 & F1). rewrite E1. cbn [bind andb].
  assert (H1 : hrepr (mbase m1) m1 A).
  { rewrite B1. apply (hrepr_frame _ m); auto. intros j Hj Hh. apply F1; auto.
    - intros C. destruct Hh as [Hh|(id & Hid & Hh)]; [lia|]. secs Hid; lia.
    - intros C. apply Dk in C as (C & _). destruct Hh as [Hh|(id & Hid & Hh)]; [lia|]. secs Hid; lia. }
  assert (O1 : forall r s n t, nth_error (a_objs A) r = Some (s, n, t) ->
    0 <= s <= zlen (a_cells A) /\ word m1 (spos A 4 + 2 + 3 * Z.of_nat r) = B + 80 + 8 * s).
  { intros r s n t Hr. pose proof (chain_nth _ _ _ _ _ _ _ (ok_chain _ Hok) Hr) as (X1 & X2 & X3).
    split; [lia|]. assert (r < length (a_objs A))%nat by (apply nth_error_Some; congruence).
    unfold zlen in Bo. rewrite F1; try lia.
    - now apply (re_obj _ _ _ R) in Hr.
    - intros C. apply Dk in C as (C & _). lia. }
  assert (OB : exists m2, (if 0 <? zlen (a_objs A) then
      it <- section_data m1 B 4 ;; apply_objects_loop (Z.to_nat (zlen (a_objs A))) m1 it (N - B)
    else Some (true, m1)) = Some (true, m2) /\ mbase m2 = B /\ wlen m2 = wlen m /\
    (forall r s n t, nth_error (a_objs A) r = Some (s, n, t) ->
       word m2 (spos A 4 + 2 + 3 * Z.of_nat r) = N + 80 + 8 * s) /\
    (forall j, 0 <= j -> (forall r, (r < length (a_objs A))%nat -> j <> spos A 4 + 2 + 3 * Z.of_nat r) ->
       word m2 j = word m1 j)).
  { destruct (Z.ltb_spec 0 (zlen (a_objs A))) as [Hd|Hd].
    - rewrite <- B1. rewrite (section_data_ok _ _ H1) by auto. cbn [bind]. rewrite <- W1.
      unfold zlen at 1. rewrite Nat2Z.id.
      apply (apply_objects_loop_ok (mbase m1) N N1 (a_objs A) m1 (spos A 4 + 2) (zlen (a_cells A)));
        try lia. rewrite B1. exact O1.
    - exists m1. split; [reflexivity|]. split; [assumption|]. split; [assumption|].
      assert (X : a_objs A = []) by (destruct (a_objs A); [reflexivity|unfold zlen in *; cbn [length] in *; lia]).
      rewrite X. split; [intros [|r] s n t Hr; discriminate|]. auto. }
  destruct OB as (m2 & E2 & B2 & W2 & G2 & F2). rewrite E2. cbn [bind].
  assert (H2 : hrepr (mbase m2) m2 A).
  { rewrite B2, <- B1. apply (hrepr_frame _ m1); auto; [congruence|]. intros j Hj Hh. apply F2; auto.
    intros r Hr C. unfold zlen in Bo.
    destruct Hh as [Hh|(id & Hid & Hh)]; [lia|]. secs Hid; lia. }
  (* the header *)
  rewrite <- B2. rewrite (rd_base _ _ H2). cbn [bind]. pose proof (rd_hdr _ _ H2) as RH.
  change (8 * 3) with 24. change (8 * 4) with 32. change (8 * 5) with 40. change (8 * 6) with 48.
  pose proof (RH 3 ltac:(lia)) as R3. pose proof (RH 4 ltac:(lia)) as R4.
  pose proof (RH 5 ltac:(lia)) as R5. pose proof (RH 6 ltac:(lia)) as R6.
  change (8 * 3) with 24 in R3. change (8 * 4) with 32 in R4. change (8 * 5) with 40 in R5.
  change (8 * 6) with 48 in R6. rewrite R3, R4, R5, R6. cbn [bind].
  rewrite !(hr_sec _ _ _ H2) by auto. rewrite B2. unfold addr_shift.
  replace (B + (N - B)) with N by lia.
  replace (B + 8 * spos A 3 + (N - B)) with (N + 8 * spos A 3) by lia.
  replace (B + 8 * spos A 4 + (N - B)) with (N + 8 * spos A 4) by lia.
  replace (B + 8 * spos A 5 + (N - B)) with (N + 8 * spos A 5) by lia.
  replace (B + 8 * spos A 6 + (N - B)) with (N + 8 * spos A 6) by lia.
  rewrite (u64_id N), (u64_id (N + 8 * spos A 3)), (u64_id (N + 8 * spos A 4)),
    (u64_id (N + 8 * spos A 5)), (u64_id (N + 8 * spos A 6)) by lia.
  rewrite !eqb_false by lia. cbn [negb andb].
  rewrite (wr_ok m2 B 0) by lia. cbn [bind].
  rewrite (wr_ok _ (B + 24) 3) by (rewrite ?mupd_base, ?mupd_wlen; lia). cbn [bind].
  rewrite (wr_ok _ (B + 32) 4) by (rewrite ?mupd_base, ?mupd_wlen; lia). cbn [bind].
  rewrite (wr_ok _ (B + 40) 5) by (rewrite ?mupd_base, ?mupd_wlen; lia). cbn [bind].
  rewrite (wr_ok _ (B + 48) 6) by (rewrite ?mupd_base, ?mupd_wlen; lia). cbn [bind].
  match goal with |- exists m', Some (true, ?x) = _ /\ _ => set (m3 := x) end.
  exists m3. split; [reflexivity|].
  assert (G3 : forall j, 0 <= j -> word m3 j = if j =? 6 then N + 8 * spos A 6
     else if j =? 5 then N + 8 * spos A 5 else if j =? 4 then N + 8 * spos A 4
     else if j =? 3 then N + 8 * spos A 3 else if j =? 0 then N else word m2 j).
  { intros j Hj. unfold m3. rewrite !word_mupd; rewrite ?mupd_wlen; try lia; reflexivity. }
  assert (B3 : mbase m3 = B) by (unfold m3; rewrite !mupd_base; exact B2).
  assert (W3 : wlen m3 = wlen m) by (unfold m3; rewrite !mupd_wlen; exact W2).
  clearbody m3. split; [|auto].
  assert (G3' : forall j, 7 <= j -> word m3 j = word m2 j)
    by (intros j Hj; rewrite G3 by lia; rewrite !eqb_false by lia; reflexivity).
  split.
  - split.
    + exact Hok.
    + split; [lia|]. split; [assumption|lia].
    + lia.
    + now rewrite G3 by lia.
    + rewrite G3 by lia. rewrite !eqb_false by lia. apply (hr_1 _ _ _ H2).
    + rewrite G3 by lia. rewrite !eqb_false by lia. apply (hr_2 _ _ _ H2).
    + intros id Hid. secs Hid; rewrite G3 by lia; reflexivity.
    + intros id Hid. pose proof (spos_bounds A id Hok Hid). rewrite G3' by lia. now apply (hr_max _ _ _ H2).
    + intros id Hid. pose proof (spos_bounds A id Hok Hid). rewrite G3' by lia. now apply (hr_num _ _ _ H2).
  - intros k c Hk. assert (K : (k < length (a_cells A))%nat) by (apply nth_error_Some; congruence).
    assert (Z.of_nat k < zlen (a_cells A)) by (unfold zlen; lia).
    rewrite G3' by lia. rewrite F2 by (try lia; intros; lia).
    destruct c as [w|q].
    + rewrite F1; try lia.
      * now apply (re_cell _ _ _ R) in Hk.
      * intros C. apply Dk in C as (_ & q & Hq & _).
        replace (Z.to_nat (10 + Z.of_nat k - 10)) with k in Hq by lia. congruence.
    + rewrite T1.
      * apply (re_cell _ _ _ R) in Hk. rewrite Hk. cbn [cellval]. lia.
      * apply (ok_ptr _ Hok). split; [lia|]. rewrite Nat2Z.id. eauto.
  - intros i s n t Hi. assert (K : (i < length (a_objs A))%nat) by (apply nth_error_Some; congruence).
    assert (Z.of_nat i < zlen (a_objs A)) by (unfold zlen; lia).
    destruct (re_obj _ _ _ R i s n t Hi) as (X & Y & Z1).
    rewrite !G3' by lia. split; [now apply (G2 i s n t)|].
    rewrite !F2 by (try lia; intros; lia).
    rewrite !F1; try lia; auto; intros C; apply Dk in C as (C & _); lia.
  - intros j k Hj. assert (K : (j < length (a_dps A))%nat) by (apply nth_error_Some; congruence).
    assert (Z.of_nat j < zlen (a_dps A)) by (unfold zlen; lia).
    rewrite G3' by lia. rewrite F2; [now apply G1|lia|].
    intros r Hr. unfold zlen in Bo. lia.
Qed.
End Apply.
