(* Remapping a block: all addresses move from the stored base to the actual one. *)
From Coq Require Import ZArith List Bool Lia.
From Verif Require Import MBuf MBufSpec MBufMem MBufAbs.
Import ListNotations.
Local Open Scope Z_scope.

(* m' differs from m at most in the words satisfying P *)
Definition frame (m m' : mem) (P : Z -> Prop) : Prop :=
  mbase m' = mbase m /\ wlen m' = wlen m /\
  forall j, 0 <= j -> ~ P j -> word m' j = word m j.

Lemma slot_based_mul n : 0 <= n -> slot_based (8 * n) = 8 * n.
Proof.
  intros. unfold slot_based. rewrite Z.mul_comm, Z.mod_mul by lia. reflexivity.
Qed.

Lemma ltb_false a b : b <= a -> (a <? b) = false.
Proof. apply Z.ltb_ge. Qed.
Lemma ltb_true a b : a < b -> (a <? b) = true.
Proof. apply Z.ltb_lt. Qed.
Lemma leb_true a b : a <= b -> (a <=? b) = true.
Proof. apply Z.leb_le. Qed.
Lemma leb_false a b : b < a -> (a <=? b) = false.
Proof. apply Z.leb_gt. Qed.
Lemma eqb_false a b : a <> b -> (a =? b) = false.
Proof. apply Z.eqb_neq. Qed.

Section Loops.
Variables (b0 b1 : Z).
Hypothesis Hb1 : 0 < b1.
Local Notation off := (b1 - b0).

Lemma remap_objects_loop_ok rest : forall m p lo ns,
  0 <= p -> p + 3 * zlen rest <= wlen m ->
  b1 + 80 + 8 * ns < 2 ^ 64 -> 0 <= lo -> chain lo ns rest ->
  (forall r s n t, nth_error rest r = Some (s, n, t) ->
     word m (p + 3 * Z.of_nat r) = b0 + 80 + 8 * s /\
     word m (p + 3 * Z.of_nat r + 2) = 8 * n) ->
  exists m', remap_objects_loop (length rest) m (mbase m + 8 * p) off (b1 + 80)
               (b1 + 80 + 8 * ns) (b1 + 80 + 8 * lo) = Some (true, m') /\
    frame m m' (fun j => p <= j < p + 3 * zlen rest) /\
    forall r s n t, nth_error rest r = Some (s, n, t) ->
      word m' (p + 3 * Z.of_nat r) = b1 + 80 + 8 * s /\
      word m' (p + 3 * Z.of_nat r + 1) = word m (p + 3 * Z.of_nat r + 1) /\
      word m' (p + 3 * Z.of_nat r + 2) = word m (p + 3 * Z.of_nat r + 2).
Proof.
  induction rest as [|[[s n] t] rest IH]; intros m p lo ns Hp Hl Hns Hlo Hc He.
  - exists m. split; [reflexivity|]. split.
    + repeat split. + intros r ? ? ? H. destruct r; discriminate.
  - assert (Hz : zlen ((s, n, t) :: rest) = 1 + zlen rest) by (unfold zlen; simpl length; lia).
    rewrite Hz in *. pose proof (zlen_nonneg rest) as Hzr.
    pose proof (chain_nth _ _ _ O _ _ _ Hc eq_refl) as (Hs1 & Hs2 & Hs3).
    destruct (He O s n t eq_refl) as (E0 & E2). change (Z.of_nat 0) with 0 in *.
    rewrite Z.mul_0_r, Z.add_0_r in *.
    cbn [length remap_objects_loop].
    rewrite (rd_ok m (mbase m + 8 * p + 16) (p + 2)) by lia. cbn [bind].
    rewrite (rd_ok m (mbase m + 8 * p) p) by lia. cbn [bind]. rewrite E2, E0.
    rewrite slot_based_mul by lia. unfold addr_shift.
    replace (b0 + 80 + 8 * s + (b1 - b0)) with (b1 + 80 + 8 * s) by lia.
    rewrite u64_id by lia.
    rewrite !ltb_false by lia. cbn [orb].
    rewrite (wr_ok m (mbase m + 8 * p) p) by lia. cbn [bind].
    set (m1 := mupd m p (b1 + 80 + 8 * s)).
    assert (W1 : wlen m1 = wlen m) by apply mupd_wlen.
    assert (B1 : mbase m1 = mbase m) by reflexivity.
    assert (G1 : forall j, 0 <= j -> j <> p -> word m1 j = word m j).
    { intros j Hj Hn. unfold m1. rewrite word_mupd by lia. now rewrite eqb_false. }
    assert (G1p : word m1 p = b1 + 80 + 8 * s).
    { unfold m1. rewrite word_mupd by lia. now rewrite Z.eqb_refl. }
    clearbody m1.
    rewrite u64_id by lia.
    destruct (IH m1 (p + 3) (s + n) ns) as (m' & E & (F1 & F2 & F3) & G); try lia.
    + simpl in Hc. tauto.
    + intros r s' n' t' Hr. destruct (He (S r) s' n' t' Hr) as (X & Y).
      rewrite !G1 by lia.
      split; [rewrite <- X|rewrite <- Y]; f_equal; lia.
    + exists m'. rewrite B1 in E.
      replace (mbase m + 8 * p + 24) with (mbase m + 8 * (p + 3)) by lia.
      replace (b1 + 80 + 8 * s + 8 * n) with (b1 + 80 + 8 * (s + n)) by lia.
      split; [exact E|]. split.
      * split; [congruence|]. split; [congruence|].
        intros j Hj Hn. rewrite F3 by lia. apply G1; lia.
      * intros [|r] s' n' t' Hr.
        -- injection Hr as <- <- <-. change (Z.of_nat 0) with 0. rewrite Z.mul_0_r, Z.add_0_r.
           rewrite !F3 by lia. rewrite G1p, !G1 by lia. auto.
        -- destruct (G r s' n' t' Hr) as (X & Y & Z').
           rewrite !G1 in Y by lia. rewrite !G1 in Z' by lia.
           replace (p + 3 * Z.of_nat (S r)) with (p + 3 + 3 * Z.of_nat r) by lia. auto.
Qed.

Lemma remap_dataptrs_loop_ok rest : forall m p ns,
  10 + ns <= p -> p + zlen rest <= wlen m ->
  b1 + 80 + 8 * ns < 2 ^ 64 -> mbase m = b1 -> NoDup rest ->
  (forall k, In k rest -> 0 <= k < ns /\
     exists q, 0 <= q <= ns /\ word m (10 + k) = b0 + 80 + 8 * q) ->
  (forall r k, nth_error rest r = Some k -> word m (p + Z.of_nat r) = b0 + 80 + 8 * k) ->
  exists t m', remap_dataptrs_loop (length rest) m (mbase m + 8 * p) off (b1 + 80)
               (b1 + 80 + 8 * ns) = Some (t, m') /\
    frame m m' (fun j => p <= j < p + zlen rest \/ In (j - 10) rest) /\
    (t = true <-> forall k, In k rest -> word m (10 + k) < b0 + 80 + 8 * ns) /\
    (t = true -> (forall r k, nth_error rest r = Some k -> word m' (p + Z.of_nat r) = b1 + 80 + 8 * k) /\
    (forall k, In k rest -> word m' (10 + k) = word m (10 + k) + off)).
Proof.
  induction rest as [|k rest IH]; intros m p ns Hp Hl Hns Hb Hnd Ht He.
  - exists true, m. split; [reflexivity|]. split; [|split; [|split]].
    + repeat split. + split; [intros _ ? []|reflexivity].
    + intros r ? H0. destruct r; discriminate. + intros ? [].
  - assert (Hz : zlen (k :: rest) = 1 + zlen rest) by (unfold zlen; simpl length; lia).
    rewrite Hz in *. pose proof (zlen_nonneg rest) as Hzr.
    destruct (Ht k (or_introl eq_refl)) as (Hk & q & Hq & Eq).
    pose proof (He O k eq_refl) as E0. change (Z.of_nat 0) with 0 in E0.
    rewrite Z.add_0_r in E0.
    cbn [length remap_dataptrs_loop].
    rewrite (rd_ok m (mbase m + 8 * p) p) by lia. cbn [bind]. rewrite E0. unfold addr_shift.
    replace (b0 + 80 + 8 * k + (b1 - b0)) with (b1 + 80 + 8 * k) by lia.
    rewrite (u64_id (b1 + 80 + 8 * k)) by lia.
    rewrite (eqb_false (b1 + 80 + 8 * k)) by lia.
    rewrite (rd_ok m (b1 + 80 + 8 * k) (10 + k)) by lia. cbn [bind]. rewrite Eq.
    replace (b0 + 80 + 8 * q + (b1 - b0)) with (b1 + 80 + 8 * q) by lia.
    rewrite (u64_id (b1 + 80 + 8 * q)) by lia.
    rewrite (eqb_false (b1 + 80 + 8 * q)) by lia.
    rewrite !leb_true, (ltb_true (b1 + 80 + 8 * k)) by lia. cbn [negb andb].
    destruct (Z.ltb_spec (b1 + 80 + 8 * q) (b1 + 80 + 8 * ns)) as [Hlt|Hge].
    2:{ exists false, m. split; [reflexivity|]. split; [repeat split|]. split; [|discriminate].
        split; [discriminate|]. intros C. specialize (C k (or_introl eq_refl)). lia. }
    rewrite (wr_ok m (b1 + 80 + 8 * k) (10 + k)) by lia. cbn [bind].
    rewrite (wr_ok (mupd m (10 + k) (b1 + 80 + 8 * q)) (mbase m + 8 * p) p)
      by (rewrite ?mupd_base, ?mupd_wlen; lia). cbn [bind].
    set (m1 := mupd (mupd m (10 + k) (b1 + 80 + 8 * q)) p (b1 + 80 + 8 * k)).
    assert (W1 : wlen m1 = wlen m) by (unfold m1; now rewrite !mupd_wlen).
    assert (B1 : mbase m1 = mbase m) by reflexivity.
    assert (G1 : forall j, 0 <= j -> word m1 j =
      if j =? p then b1 + 80 + 8 * k else if j =? 10 + k then b1 + 80 + 8 * q else word m j).
    { intros j Hj. unfold m1. rewrite !word_mupd; rewrite ?mupd_wlen; try lia; reflexivity. }
    clearbody m1.
    apply NoDup_cons_iff in Hnd as (Hni & Hnd).
    destruct (IH m1 (p + 1) ns) as (t & m' & E & (F1 & F2 & F3) & TT & GT); try lia; auto.
    + intros k' Hk'. destruct (Ht k' (or_intror Hk')) as (? & q' & ? & X).
      split; [assumption|]. exists q'. split; [assumption|].
      rewrite G1 by lia. rewrite (eqb_false _ p) by lia.
      rewrite eqb_false; [assumption|]. intros C. apply Hni. now replace k with k' by lia.
    + intros r k' Hr. rewrite G1 by lia. rewrite !eqb_false by lia.
      pose proof (He (S r) k' Hr) as X. rewrite <- X. f_equal. lia.
    + exists t, m'. rewrite B1 in E.
      replace (mbase m + 8 * p + 8) with (mbase m + 8 * (p + 1)) by lia.
      assert (GW : forall k', In k' rest -> word m1 (10 + k') = word m (10 + k')).
      { intros k' Hk'. destruct (Ht k' (or_intror Hk')). rewrite G1 by lia.
        rewrite (eqb_false _ p) by lia. rewrite eqb_false; [reflexivity|].
        intros C. apply Hni. now replace k with k' by lia. }
      split; [exact E|]. split; [|split; [|intros Et; destruct (GT Et) as (G & T); split]].
      * split; [congruence|]. split; [congruence|].
        intros j Hj Hn. rewrite F3 by first [assumption | intros [C|C]; apply Hn; [left; lia|right; now right]].
        rewrite G1 by assumption.
        rewrite (eqb_false j p) by (intros ->; apply Hn; left; lia).
        rewrite eqb_false; [reflexivity|]. intros ->. apply Hn. right. left. lia.
      * rewrite TT. split.
        -- intros C k' [<-|Hk']; [lia|]. rewrite <- GW by assumption. auto.
        -- intros C k' Hk'. rewrite GW by assumption. apply C. now right.
      * intros [|r] k' Hr.
        -- injection Hr as <-. change (Z.of_nat 0) with 0. rewrite Z.add_0_r.
           rewrite F3; [|lia|]. { rewrite G1 by lia. now rewrite Z.eqb_refl. }
           intros [C|C]; [lia|]. 
           destruct (Ht (p - 10) (or_intror C)). lia.
        -- replace (p + Z.of_nat (S r)) with (p + 1 + Z.of_nat r) by lia. now apply G.
      * intros k' [<-|Hk'].
        -- rewrite F3; [|lia|].
           { rewrite G1 by lia. rewrite (eqb_false _ p) by lia. rewrite Z.eqb_refl, Eq. lia. }
           intros [C|C]; [lia|]. apply Hni. now replace k with (10 + k - 10) by lia.
        -- rewrite T by assumption. destruct (Ht k' (or_intror Hk')).
           rewrite G1 by lia. rewrite (eqb_false _ p) by lia.
           rewrite eqb_false; [reflexivity|]. intros C. apply Hni. now replace k with k' by lia.
Qed.
End Loops.

Section Remap.
Variables (b0 b1 : Z) (A : abs).
Hypothesis (Hb1 : base_ok b1 A).

Lemma addr_offset_ok m : hrepr b0 m A -> mbase m = b1 ->
  addr_offset m b1 = Some (Some (b1 - b0)).
Proof.
  intros H Hb. destruct Hb1 as (P & Q & _). unfold addr_offset.
  rewrite eqb_false by lia. rewrite Q. cbn [negb andb].
  change (0 =? 0) with true. cbn [andb].
  pose proof (hr_len _ _ _ H). pose proof (spos_bounds A 3 (hr_ok _ _ _ H) secid3).
  rewrite (rd_ok m b1 0) by lia. cbn [bind]. now rewrite (hr_0 _ _ _ H).
Qed.

Lemma remap_header_ok m : hrepr b0 m A -> mbase m = b1 -> b0 <> b1 ->
  exists m1, remap_header m b1 (b1 - b0) = Some (true, m1) /\ hrepr b1 m1 A /\
    frame m m1 (fun j => 0 <= j <= 6).
Proof.
  intros H Hb Hne. pose proof Hb1 as (P & Q & T).
  pose proof (hr_ok _ _ _ H) as Hok. pose proof (hr_len _ _ _ H) as Hlen.
  assert (S : forall id, secid id -> 8 <= spos A id /\ spos A id + 2 <= tot A).
  { intros id Hid. pose proof (spos_bounds A id Hok Hid). lia. }
  pose proof (S 3 secid3) as S3. pose proof (S 4 secid4) as S4.
  pose proof (S 5 secid5) as S5. pose proof (S 6 secid6) as S6.
  unfold remap_header. rewrite (eqb_false b1 0) by lia.
  rewrite addr_offset_ok by assumption. cbn [bind]. rewrite Z.eqb_refl. cbn [negb].
  rewrite (eqb_false (b1 - b0) 0) by lia.
  rewrite (rd_ok m b1 0) by lia. cbn [bind]. rewrite (hr_0 _ _ _ H). unfold addr_shift.
  replace (b0 + (b1 - b0)) with b1 by lia. rewrite (u64_id b1) by lia.
  rewrite (eqb_false b1 0), Z.eqb_refl by lia. cbn [negb andb].
  unfold SLOTS_ID, OBJECTS_ID, DATAPTRS_ID, GARBAGE_ID.
  rewrite (rd_ok m (b1 + 8 * 3) 3), (rd_ok m (b1 + 8 * 4) 4), (rd_ok m (b1 + 8 * 5) 5),
    (rd_ok m (b1 + 8 * 6) 6) by lia. cbn [bind].
  rewrite !(hr_sec _ _ _ H) by auto.
  replace (b0 + 8 * spos A 3 + (b1 - b0)) with (b1 + 8 * spos A 3) by lia.
  replace (b0 + 8 * spos A 4 + (b1 - b0)) with (b1 + 8 * spos A 4) by lia.
  replace (b0 + 8 * spos A 5 + (b1 - b0)) with (b1 + 8 * spos A 5) by lia.
  replace (b0 + 8 * spos A 6 + (b1 - b0)) with (b1 + 8 * spos A 6) by lia.
  rewrite !u64_id by lia. rewrite !eqb_false by lia. cbn [negb andb].
  rewrite (wr_ok m b1 0) by lia. cbn [bind].
  repeat match goal with
  | |- context [wr ?m (b1 + 8 * ?i) ?v] =>
      rewrite (wr_ok m (b1 + 8 * i) i v) by (rewrite ?mupd_base, ?mupd_wlen; lia); cbn [bind]
  end.
  eexists. split; [reflexivity|].
  match goal with |- hrepr b1 ?m1 A /\ _ => set (m1' := m1) end.
  assert (W : wlen m1' = wlen m) by (unfold m1'; now rewrite !mupd_wlen).
  assert (G : forall j, 0 <= j -> word m1' j =
    if j =? 6 then b1 + 8 * spos A 6 else if j =? 5 then b1 + 8 * spos A 5
    else if j =? 4 then b1 + 8 * spos A 4 else if j =? 3 then b1 + 8 * spos A 3
    else if j =? 0 then b1 else word m j).
  { intros j Hj. unfold m1'. rewrite !word_mupd; rewrite ?mupd_wlen; try lia; reflexivity. }
  assert (Bm : mbase m1' = mbase m) by reflexivity.
  clearbody m1'. split.
  - split.
    + exact Hok.
    + exact Hb1.
    + lia.
    + rewrite G by lia. reflexivity.
    + rewrite G by lia. apply (hr_1 _ _ _ H).
    + rewrite G by lia. apply (hr_2 _ _ _ H).
    + intros id Hid. secs Hid; rewrite G by lia; reflexivity.
    + intros id Hid. pose proof (S id Hid). rewrite G by lia. rewrite !eqb_false by lia.
      now apply (hr_max _ _ _ H).
    + intros id Hid. pose proof (S id Hid). rewrite G by lia. rewrite !eqb_false by lia.
      now apply (hr_num _ _ _ H).
  - split; [exact Bm|]. split; [exact W|]. intros j Hj Hn.
    rewrite G by assumption. now rewrite !eqb_false by lia.
Qed.

Lemma size_le_max id : ok A -> secid id ->
  (16 + entity_size id * snum A id <=? 16 + entity_size id * smax A id) = true.
Proof.
  intros Hok Hid. apply leb_true. pose proof (spos_bounds A id Hok Hid).
  pose proof (entity_pos id Hid). nia.
Qed.

Lemma snum_nat {T} (l : list T) : Z.to_nat (zlen l) = length l.
Proof. unfold zlen. lia. Qed.

(* positions of the sections and the words between them *)
Lemma layout : ok A ->
  spos A 3 = 8 /\ spos A 4 = 10 + a_ms A /\ spos A 5 = spos A 4 + 2 + 3 * a_mo A /\
  spos A 6 = spos A 5 + 2 + a_md A /\ tot A = spos A 6 + 2 + 2 * a_mg A /\
  snum A 3 = zlen (a_cells A) /\ snum A 4 = zlen (a_objs A) /\ snum A 5 = zlen (a_dps A) /\
  snum A 6 = 0.
Proof.
  intros Hok. unfold spos, tot, snum. cbn [Z.eqb Pos.eqb]. lia.
Qed.

Theorem mb_remap_all m : repr b0 m A -> mbase m = b1 ->
  exists t m', mb_remap m b1 = Some (t, m') /\ (t = true <-> b0 = b1 \/ remappable A) /\
    (t = true -> repr b1 m' A) /\ frame m m' (fun j => j < tot A).
Proof.
  intros R Hb. pose proof (re_h _ _ _ R) as H. pose proof (hr_ok _ _ _ H) as Hok.
  pose proof (ok_bounds A Hok) as (Bc & Bo & Bd & Bg).
  pose proof (layout Hok) as (L3 & L4 & L5 & L6 & Lt & N3 & N4 & N5 & N6).
  pose proof Hb1 as (P & Q & T). pose proof (hr_len _ _ _ H) as Hlen.
  unfold mb_remap. rewrite addr_offset_ok by assumption. cbn [bind].
  destruct (Z.eqb_spec (b1 - b0) 0) as [E|E].
  { assert (Eb : b0 = b1) by lia. exists true, m. split; [reflexivity|]. split; [split; auto|].
    split; [rewrite <- Eb; auto|]. split; [reflexivity|]. split; [reflexivity|].
    intros; reflexivity. }
  destruct (remap_header_ok m H Hb) as (m1 & E1 & H1 & F1b & F1w & F1); [lia|].
  rewrite E1. cbn [bind]. clear E1.
  (* slots *)
  assert (E2 : remap_slots m1 b1 = Some true).
  { unfold remap_slots. rewrite eqb_false by lia. rewrite Q.
    change (0 =? 0) with true. cbn [negb andb]. unfold SLOTS_ID.
    assert (b1 = mbase m1) by congruence. rewrite H0 in *.
    rewrite (section_ptr_ok _ _ H1) by auto. cbn [bind]. rewrite (sp_nz _ _ H1) by auto.
    rewrite (rd_ok m1 _ (spos A 3)) by lia. cbn [bind].
    rewrite (rd_ok m1 _ (spos A 3 + 1)) by lia. cbn [bind].
    rewrite (hr_max _ _ _ H1), (hr_num _ _ _ H1) by auto.
    pose proof (num_bytes _ _ H1 3 secid3).
    rewrite u64_id by lia. f_equal. apply leb_true. lia. }
  rewrite E2. cbn [bind]. clear E2.
  (* objects *)
  assert (R1 : hrepr (mbase m1) m1 A) by now rewrite F1b, Hb.
  assert (Bm1 : mbase m1 = b1) by congruence.
  assert (exists m2, remap_objects m1 b1 (b1 - b0) = Some (true, m2) /\
    frame m1 m2 (fun j => spos A 4 + 2 <= j < spos A 4 + 2 + 3 * zlen (a_objs A)) /\
    forall i s n t, nth_error (a_objs A) i = Some (s, n, t) ->
      word m2 (spos A 4 + 2 + 3 * Z.of_nat i) = b1 + 80 + 8 * s /\
      word m2 (spos A 4 + 2 + 3 * Z.of_nat i + 1) = t /\
      word m2 (spos A 4 + 2 + 3 * Z.of_nat i + 2) = 8 * n) as (m2 & E2 & (F2b & F2w & F2) & G2).
  { assert (K : forall i s n t, nth_error (a_objs A) i = Some (s, n, t) ->
      word m1 (spos A 4 + 2 + 3 * Z.of_nat i) = b0 + 80 + 8 * s /\
      word m1 (spos A 4 + 2 + 3 * Z.of_nat i + 1) = t /\
      word m1 (spos A 4 + 2 + 3 * Z.of_nat i + 2) = 8 * n).
    { intros i s n t Hi. rewrite !F1 by lia. now apply (re_obj _ _ _ R). }
    unfold remap_objects. rewrite (eqb_false b1 0) by lia. unfold OBJECTS_ID, SLOTS_ID.
    rewrite <- Bm1 in *.
    rewrite (section_ptr_ok _ _ R1), (section_max_size_ok _ _ R1), (section_size_ok _ _ R1),
      (section_data_ok _ _ R1), (section_num_ok _ _ R1) by auto. cbn [bind].
    rewrite (sp_nz _ _ R1), size_le_max by auto. cbn [negb andb].
    destruct (Z.ltb_spec 0 (snum A 4)) as [Hn|Hn].
    - rewrite (section_data_ok _ _ R1), (section_end_ok _ _ R1) by auto. cbn [bind].
      rewrite N4, snum_nat, N3, L3.
      destruct (remap_objects_loop_ok b0 (mbase m1) P (a_objs A) m1 (spos A 4 + 2) 0
                  (zlen (a_cells A))) as (m2 & X & Y & Z1); try lia.
      + apply (ok_chain _ Hok).
      + intros r s n t Hr. destruct (K r s n t Hr) as (? & ? & ?). auto.
      + exists m2. split; [|split; [exact Y|]].
        * rewrite <- X. f_equal; unfold entity_size; cbn [Z.eqb Pos.eqb]; lia.
        * intros i s n t Hi. destruct (Z1 i s n t Hi) as (? & X2 & X3).
          destruct (K i s n t Hi) as (? & K2 & K3). rewrite X2, X3. auto.
    - exists m1. split; [reflexivity|]. split; [repeat split|].
      intros i s n t Hi. assert (i < length (a_objs A))%nat by (apply nth_error_Some; congruence).
      unfold zlen in *. lia. }
  rewrite E2. cbn [bind]. clear E2.
  (* data pointers *)
  assert (R2 : hrepr (mbase m2) m2 A).
  { rewrite F2b. apply (hrepr_frame _ m1); auto. intros j Hj Hh. apply F2; auto.
    intros C. destruct Hh as [Hh|(id & Hid & Hh)]; [lia|]. secs Hid; lia. }
  assert (Bm2 : mbase m2 = b1) by congruence.
  assert (C2 : forall k c, nth_error (a_cells A) k = Some c -> word m2 (10 + Z.of_nat k) = cellval b0 c).
  { intros k c Hk. assert (k < length (a_cells A))%nat by (apply nth_error_Some; congruence).
    unfold zlen in *. rewrite F2 by lia. rewrite F1 by lia. now apply (re_cell _ _ _ R). }
  assert (D2 : forall j k, nth_error (a_dps A) j = Some k ->
              word m2 (spos A 5 + 2 + Z.of_nat j) = b0 + 80 + 8 * k).
  { intros j k Hj. rewrite F2 by lia. rewrite F1 by lia. now apply (re_dp _ _ _ R). }
  assert (Dk : forall k, In k (a_dps A) -> 0 <= k < zlen (a_cells A) /\ exists q,
    nth_error (a_cells A) (Z.to_nat k) = Some (Ptr q) /\ 0 <= q <= zlen (a_cells A)).
  { intros k Hk. apply (ok_ptr _ Hok) in Hk as (Hk & q & Hq).
    assert (Z.to_nat k < length (a_cells A))%nat by (apply nth_error_Some; congruence).
    split; [unfold zlen; lia|]. exists q. split; [assumption|].
    pose proof (ok_target _ Hok _ _ Hq). lia. }
  assert (RW : remappable A <->
    forall k, In k (a_dps A) -> word m2 (10 + k) < b0 + 80 + 8 * zlen (a_cells A)).
  { split.
    - intros Hre k Hk. destruct (Dk k Hk) as (? & q & Hq & _). pose proof (Hre _ _ Hq).
      specialize (C2 _ _ Hq). rewrite Z2Nat.id in C2 by lia. rewrite C2. cbn [cellval]. lia.
    - intros C k q Hq. specialize (C (Z.of_nat k)). rewrite (C2 _ _ Hq) in C.
      cbn [cellval] in C. enough (In (Z.of_nat k) (a_dps A)) by (specialize (C H0); lia).
      apply (ok_ptr _ Hok). split; [lia|]. rewrite Nat2Z.id. eauto. }
  assert (exists t m3, remap_dataptrs m2 b1 (b1 - b0) = Some (t, m3) /\ (t = true <-> remappable A) /\
    frame m2 m3 (fun j => spos A 5 + 2 <= j < spos A 5 + 2 + zlen (a_dps A) \/ In (j - 10) (a_dps A)) /\
    (t = true -> (forall r k, nth_error (a_dps A) r = Some k -> word m3 (spos A 5 + 2 + Z.of_nat r) = b1 + 80 + 8 * k) /\
    (forall k, In k (a_dps A) -> word m3 (10 + k) = word m2 (10 + k) + (b1 - b0))))
    as (t3 & m3 & E3 & TR & (F3b & F3w & F3) & GT3).
  { unfold remap_dataptrs. rewrite (eqb_false b1 0) by lia. unfold DATAPTRS_ID, SLOTS_ID.
    rewrite <- Bm2 in *.
    rewrite (section_data_ok _ _ R2), (section_num_ok _ _ R2), (section_size_ok _ _ R2),
      (section_max_size_ok _ _ R2) by auto. cbn [bind].
    rewrite eqb_false by lia. rewrite size_le_max by auto. cbn [negb andb].
    destruct (Z.ltb_spec 0 (snum A 5)) as [Hn|Hn].
    - rewrite (section_data_ok _ _ R2), (section_end_ok _ _ R2) by auto. cbn [bind].
      rewrite N5, snum_nat, N3, L3.
      destruct (remap_dataptrs_loop_ok b0 (mbase m2) P (a_dps A) m2 (spos A 5 + 2)
                  (zlen (a_cells A))) as (t3 & m3 & X & Y & Z1 & Z2); auto; try lia.
      + apply (ok_nodup _ Hok).
      + intros k Hk. destruct (Dk k Hk) as (? & q & Hq & ?). split; [assumption|].
        exists q. split; [assumption|]. specialize (C2 _ _ Hq). rewrite Z2Nat.id in C2 by lia.
        exact C2.
      + exists t3, m3. split; [|split; [rewrite RW; exact Z1|auto]].
        rewrite <- X. f_equal; unfold entity_size; cbn [Z.eqb Pos.eqb]; lia.
    - exists true, m2. split; [reflexivity|].
      assert (X : a_dps A = []) by (destruct (a_dps A); [reflexivity|unfold zlen in *; simpl length in *; lia]).
      split; [rewrite RW, X; split; [intros _ k []|reflexivity]|]. split; [repeat split|].
      intros _. rewrite X. split; [intros [|r] k Hr; discriminate|intros k []]. }
  rewrite E3. cbn [bind]. clear E3.
  (* garbage *)
  assert (R3 : hrepr (mbase m3) m3 A).
  { rewrite F3b. apply (hrepr_frame _ m2); auto. intros j Hj Hh. apply F3; auto.
    intros [C|C].
    - destruct Hh as [Hh|(id & Hid & Hh)]; [lia|]. secs Hid; lia.
    - apply Dk in C as (C & _). destruct Hh as [Hh|(id & Hid & Hh)]; [lia|]. secs Hid; lia. }
  assert (Bm3 : mbase m3 = b1) by congruence.
  assert (E4 : remap_garbage m3 b1 (b1 - b0) = Some (true, m3)).
  { unfold remap_garbage. rewrite (eqb_false b1 0) by lia. rewrite Q.
    change (0 =? 0) with true. cbn [negb andb]. unfold GARBAGE_ID. rewrite <- Bm3 in *.
    rewrite (section_data_ok _ _ R3), (section_num_ok _ _ R3), (section_size_ok _ _ R3),
      (section_max_size_ok _ _ R3) by auto. cbn [bind].
    rewrite eqb_false by lia. rewrite size_le_max by auto. cbn [negb andb].
    rewrite N6. reflexivity. }
  rewrite E4. cbn [bind andb]. rewrite andb_true_r. exists t3, m3. split; [reflexivity|].
  split; [split; [intros ->; right; now apply TR|intros [C|C]; [lia|now apply TR]]|]. split.
  - intros Et. destruct (GT3 Et) as (G3 & T3). split.
    + now rewrite <- Bm3.
    + intros k c Hk. assert (k < length (a_cells A))%nat by (apply nth_error_Some; congruence).
      destruct (in_dec Z.eq_dec (Z.of_nat k) (a_dps A)) as [Hin|Hin].
      * rewrite T3 by assumption. rewrite (C2 _ _ Hk). apply Dk in Hin as (_ & q & Hq & _).
        rewrite Nat2Z.id, Hk in Hq. injection Hq as ->. cbn [cellval]. lia.
      * unfold zlen in *. rewrite F3; [|lia|].
        -- rewrite (C2 _ _ Hk). destruct c as [w|q]; [reflexivity|]. exfalso. apply Hin.
           apply (ok_ptr _ Hok). split; [lia|]. rewrite Nat2Z.id. eauto.
        -- intros [C|C]; [lia|]. apply Hin. now replace (Z.of_nat k) with (10 + Z.of_nat k - 10) by lia.
    + intros i s n t Hi. destruct (G2 i s n t Hi) as (X & Y & Z1).
      assert (i < length (a_objs A))%nat by (apply nth_error_Some; congruence). unfold zlen in *.
      rewrite !F3; auto; try lia; intros [C|C]; try lia; apply Dk in C as (C & _); lia.
    + exact G3.
  - split; [congruence|]. split; [congruence|]. intros j Hj Hn.
    rewrite F3; [|assumption|].
    + rewrite F2 by lia. apply F1; lia.
    + intros [C|C]; [lia|]. apply Dk in C as (C & _). lia.
Qed.

Corollary mb_remap_ok m : repr b0 m A -> mbase m = b1 -> remappable A ->
  exists m', mb_remap m b1 = Some (true, m') /\ repr b1 m' A /\ frame m m' (fun j => j < tot A).
Proof.
  intros R Hb Hre. destruct (mb_remap_all m R Hb) as (t & m' & E & T & Rt & F).
  assert (t = true) as -> by (apply T; auto). exists m'. auto.
Qed.
End Remap.
