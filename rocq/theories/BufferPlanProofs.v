(* Planning the size of a buffer: proofs. *)
From Coq Require Import ZArith List Bool Lia.
From Verif Require Import MBuf MBufSpec MBufMem MBufAbs MBufRemap MBufApply MBufReserve MBufInit
  MemPool Buffer BufferSpec BufferUser BufferProofs BufferReserve BufferNew BufferNorm BufferAddMem
  BufferAdd BufferAddLoop BufferAddMain BufferReach BufferWrite BufferProps BufferPlanSpec.
Import ListNotations.
Local Open Scope Z_scope.

Lemma can_add_all b q : reachable any b -> request_ok b q ->
  let m := b_mem b in
  let o := sec_count m 4 + 1 in
  let s := sec_count m 3 + object_words (rq_size q) (rq_attrs q) in
  let d := sec_count m 5 + Z.of_nat (length (rq_attrs q)) in
  let w x limit := (limit - x) mod 2 ^ 64 in
  can_add b q = Some
    (if (o <=? sec_limit m 4) && (s <=? sec_limit m 3) && (d <=? sec_limit m 5)
     then (true, Some (o, s, d))
     else (false, Some (if o <=? sec_limit m 4 then 0 else w o (sec_limit m 4),
                        if s <=? sec_limit m 3 then 0 else w s (sec_limit m 3),
                        if d <=? sec_limit m 5 then 0 else w d (sec_limit m 5)))) /\
  0 <= sec_limit m 4 < 2 ^ 61 /\ 0 <= sec_limit m 3 < 2 ^ 61 /\ 0 <= sec_limit m 5 < 2 ^ 61 /\
  0 < o < 2 ^ 61 /\ 0 < s < 2 ^ 62 /\ 0 <= d < 2 ^ 62.
Proof.
  intros HR (HC & Hov) m o s d w. destruct (reachable_inv _ _ HR) as (A & I & V & _).
  pose proof (bi_facts b A I) as (P & Q & T16 & Tw & Cw & Cw' & Sz & Se & Sw).
  pose proof (bi_repr _ _ I) as R. pose proof (re_h _ _ _ R) as H.
  pose proof (hr_ok _ _ _ H) as Hok.
  pose proof (ok_bounds A Hok) as (Bc & Bo & Bd & Bg).
  pose proof (call_size _ _ _ _ HC) as Hsz. pose proof (call_counts _ _ _ _ HC) as Hcnt.
  pose proof (words_of_bounds (rq_size q) ltac:(lia)) as (W0 & W1).
  pose proof (attr_words_nonneg (rq_attrs q) Hcnt) as Wn.
  pose proof (object_words_eq (rq_size q) (rq_attrs q)) as Ow.
  fold (zlen (rq_attrs q)) in Hov. pose proof (zlen_nonneg (rq_attrs q)) as Ln.
  rewrite (bi_dsize _ _ I) in Hov.
  assert (St : tot A = 16 + a_ms A + 3 * a_mo A + a_md A + 2 * a_mg A) by reflexivity.
  subst o s d m.
  rewrite !(sec_limit_ok _ _ _ R), !(sec_count_ok _ _ _ R) by (auto || (unfold section_id; lia)).
  change (smax A 3) with (a_ms A). change (smax A 4) with (a_mo A). change (smax A 5) with (a_md A).
  change (snum A 3) with (zlen (a_cells A)). change (snum A 4) with (zlen (a_objs A)).
  change (snum A 5) with (zlen (a_dps A)).
  pose proof (zlen_nonneg (a_cells A)). pose proof (zlen_nonneg (a_objs A)). pose proof (zlen_nonneg (a_dps A)).
  split.
  2:{ fold (zlen (rq_attrs q)). clear - Hov St Bc Bo Bd Bg Ow W0 W1 Hsz Wn Ln H0 H1 H2. repeat split; lia. }
  unfold can_add, can_add_object. rewrite ltb_true by assumption.
  rewrite fl_append by exact (bi_flags _ _ I). cbn [andb]. rewrite (bi_addr _ _ I). cbv zeta.
  unfold SLOTS_ID, OBJECTS_ID, DATAPTRS_ID.
  rewrite !(section_num_ok _ _ H), !(section_max_num_ok _ _ H) by auto. cbn [bind].
  change (smax A 3) with (a_ms A). change (smax A 4) with (a_mo A). change (smax A 5) with (a_md A).
  change (snum A 3) with (zlen (a_cells A)). change (snum A 4) with (zlen (a_objs A)).
  change (snum A 5) with (zlen (a_dps A)).
  rewrite predict_ok by (assumption || lia). rewrite map_length. fold (zlen (rq_attrs q)).
  rewrite (u64_id (zlen (a_objs A) + 1)), (u64_id (zlen (a_dps A) + zlen (rq_attrs q))),
    (u64_id (zlen (a_cells A) + object_words (rq_size q) (rq_attrs q))) by lia.
  unfold w, u64. destruct (_ && _ && _); reflexivity.
Qed.

Lemma fits_iff b q :
  (sec_count (b_mem b) 4 + 1 <=? sec_limit (b_mem b) 4) &&
  (sec_count (b_mem b) 3 + object_words (rq_size q) (rq_attrs q) <=? sec_limit (b_mem b) 3) &&
  (sec_count (b_mem b) 5 + Z.of_nat (length (rq_attrs q)) <=? sec_limit (b_mem b) 5) = true <-> has_room b q.
Proof. unfold has_room. cbv zeta. rewrite !andb_true_iff, !Z.leb_le. tauto. Qed.

Lemma add_room hp b q : reachable any b -> good_heap hp -> request_ok b q -> has_room b q ->
  exists r b' o, add hp b q = Some (r, b') /\ r <> 0 /\ reachable any b' /\
    data_addr (b_h b') = data_addr (b_h b) /\ data_size (b_h b') = data_size (b_h b) /\
    limits (b_mem b') = limits (b_mem b) /\
    counts (b_mem b') = [sec_count (b_mem b) 3 + object_words (rq_size q) (rq_attrs q);
      sec_count (b_mem b) 4 + 1; sec_count (b_mem b) 5 + Z.of_nat (length (rq_attrs q)); sec_count (b_mem b) 6] /\
    stored_as q o /\ objects b' = objects b ++ [o].
Proof.
  intros HR Hh RQ RM. pose proof RQ as (HC & Hov). destruct (reachable_inv _ _ HR) as (A & I & V & _).
  pose proof RM as RA. apply (has_room_iff b A q I) in RA.
  destruct (add_all hp b A (rq_mem q) (rq_obj q) (rq_size q) (rq_type q) (rq_attrs q) Hh I V HC Hov)
    as (r & b2 & E & T & T2 & T3 & _).
  assert (Hr : r <> 0) by (apply T2; auto).
  destruct (T Hr) as (ow & arrs & A' & OD & I' & V' & C' & O' & _ & Ce & Wc & La & Su & Dp & Mg & Ro & _).
  destruct (Ro RA) as (M1 & M2 & M3).
  exists r, b2, (rq_type q, expected_object ow (rq_attrs q) arrs).
  split; [exact E|]. split; [exact Hr|].
  split; [eapply r_add; eauto; exact Logic.I|].
  split; [rewrite (bi_addr _ _ I), (bi_addr _ _ I'); auto|].
  split.
  { rewrite (bi_dsize _ _ I), (bi_dsize _ _ I'). unfold tot. now rewrite M1, M2, M3, Mg. }
  split; [rewrite (limits_eq _ _ I), (limits_eq _ _ I'), M1, M2, M3, Mg; reflexivity|].
  split; [|split; [exists ow, arrs; auto|rewrite (objects_eq _ _ I), (objects_eq _ _ I'); exact C']].
  rewrite (counts_eq _ _ I'). pose proof (counts_eq _ _ I) as CE. unfold counts in CE. cbn [map] in CE.
  injection CE as C3 C4 C5 C6. rewrite C3, C4, C5, C6.
  assert (L : zlen (map (abs_cell (zlen (a_cells A))) (expected_object ow (rq_attrs q) arrs)) =
    object_words (rq_size q) (rq_attrs q)).
  { assert (EL : zlen (expected_object ow (rq_attrs q) arrs) = wcount ow + sumw arrs) by apply expected_length.
    unfold zlen in *. rewrite map_length, EL, Wc, Su, object_words_eq. reflexivity. }
  rewrite Ce, O', Dp, !zlen_app, L. reflexivity.
Qed.

Lemma adds_ok l : forall hps b, reachable any b -> (forall n, good_heap (hps n)) ->
  Forall (fun q => call_ok (rq_mem q) (rq_obj q) (rq_size q) (rq_attrs q)) l ->
  data_size (b_h b) + 8 * (slots_for l + 3 + pointers_for l) + 32 < 2 ^ 64 ->
  sec_count (b_mem b) 3 + slots_for l <= sec_limit (b_mem b) 3 ->
  sec_count (b_mem b) 4 + Z.of_nat (length l) <= sec_limit (b_mem b) 4 ->
  sec_count (b_mem b) 5 + pointers_for l <= sec_limit (b_mem b) 5 ->
  exists b' os, adds hps b l = Some b' /\ reachable any b' /\ data_addr (b_h b') = data_addr (b_h b) /\
    limits (b_mem b') = limits (b_mem b) /\ Forall2 stored_as l os /\ objects b' = objects b ++ os.
Proof.
  induction l as [|q l IH]; intros hps b HR Hh HC Hov H3 H4 H5.
  - exists b, []. rewrite app_nil_r. repeat split; auto.
  - inversion_clear HC as [|? ? C1 C2].
    assert (NN : forall l, Forall (fun q => call_ok (rq_mem q) (rq_obj q) (rq_size q) (rq_attrs q)) l ->
      0 <= slots_for l /\ 0 <= pointers_for l).
    { clear. induction l as [|q l IH]; intros H; [cbn; lia|]. inversion_clear H as [|? ? C1 C2].
      destruct (IH C2) as (X & Y). pose proof (object_words_eq (rq_size q) (rq_attrs q)).
      pose proof (attr_words_nonneg _ (call_counts _ _ _ _ C1)).
      pose proof (words_of_bounds (rq_size q) ltac:(pose proof (call_size _ _ _ _ C1); lia)).
      cbn [slots_for pointers_for fold_right]. fold (slots_for l) (pointers_for l). lia. }
    destruct (NN l C2) as (N1 & N2).
    pose proof (object_words_eq (rq_size q) (rq_attrs q)) as Ow.
    pose proof (attr_words_nonneg _ (call_counts _ _ _ _ C1)) as Wn.
    pose proof (words_of_bounds (rq_size q) ltac:(pose proof (call_size _ _ _ _ C1); lia)) as W.
    cbn [slots_for pointers_for fold_right length] in Hov, H3, H4, H5.
    fold (slots_for l) in Hov, H3. fold (pointers_for l) in Hov, H5. rewrite Nat2Z.inj_succ in H4.
    assert (RQ : request_ok b q).
    { split; [exact C1|]. clear - Hov N1 N2. lia. }
    assert (RM : has_room b q).
    { unfold has_room. cbv zeta. clear - H3 H4 H5 N1 N2. lia. }
    destruct (add_room (hps O) b q HR (Hh O) RQ RM) as (r & b1 & o & E & Hr & HR1 & A1 & D1 & L1 & K1 & S1 & O1).
    unfold limits, counts in L1, K1. cbn [map] in L1, K1. injection L1 as L3 L4 L5 L6. injection K1 as K3 K4 K5 K6.
    destruct (IH (fun n => hps (S n)) b1 HR1 (fun n => Hh (S n)) C2) as (b2 & os & E2 & HR2 & A2 & L2 & F2 & O2).
    + rewrite D1. clear - Hov Ow Wn W. lia.
    + rewrite K3, L3. clear - H3. lia.
    + rewrite K4, L4. clear - H4. lia.
    + rewrite K5, L5. clear - H5. lia.
    + exists b2, (o :: os). split.
      { cbn [adds]. rewrite E. rewrite (proj2 (Z.eqb_neq r 0)) by exact Hr. exact E2. }
      split; [exact HR2|]. split; [congruence|].
      split; [rewrite L2; unfold limits; cbn [map]; congruence|].
      split; [now constructor|]. rewrite O2, O1, <- app_assoc. reflexivity.
Qed.

(* ------------------------------------------------------------------ *)
(* new buffers with given limits *)
Lemma detailed_cap no ns nd ng : new_limits_ok no ns nd ng ->
  detailed_capacity no ns nd ng = 136 + 8 * ns + 24 * no + 8 * nd + 8 * ng /\
  (8 * tot (empty ns no nd ng) <= detailed_capacity no ns nd ng <-> ng <= 1).
Proof.
  intros ((L1 & L2 & L3 & L4 & L5) & L').
  assert (E : detailed_capacity no ns nd ng = 136 + 8 * ns + 24 * no + 8 * nd + 8 * ng).
  { unfold detailed_capacity, new_capacity. rewrite leb_true by lia. unfold round8.
    replace (136 + 8 * ns + 24 * no + 8 * nd + 8 * ng + 7) with ((17 + ns + 3 * no + nd + ng) * 8 + 7) by lia.
    rewrite Z.div_add_l by lia. change (7 / 8) with 0. lia. }
  split; [exact E|]. rewrite E. unfold tot, empty. cbn [a_ms a_mo a_md a_mg]. lia.
Qed.

Lemma new_detailed_all hp pa no ns nd ng flags : good_heap hp -> pa <> 0 -> new_limits_ok no ns nd ng ->
  Z.land flags F_MEMPOOL = F_MEMPOOL ->
  if h_malloc hp (length_for no ns nd ng + 16 - 8 * ng) =? 0 then buf_new_detailed hp pa no ns nd ng flags = Some None
  else if ng <=? 1 then
    exists b, buf_new_detailed hp pa no ns nd ng flags = Some (Some b) /\ reachable any b /\ objects b = [] /\
      limits (b_mem b) = [ns; no; nd; ng] /\ counts (b_mem b) = [0; 0; 0; 0] /\
      data_size (b_h b) = length_for no ns nd ng
  else buf_new_detailed hp pa no ns nd ng flags = Some None.
Proof.
  intros Hh Hp L Hf. pose proof (detailed_inv hp pa no ns nd ng flags Hh Hp L Hf) as N. cbv zeta in N.
  destruct (detailed_cap no ns nd ng L) as (E & F).
  replace (detailed_capacity no ns nd ng + 8) with (length_for no ns nd ng + 16 - 8 * ng) in N
    by (rewrite E; unfold length_for; lia).
  destruct (h_malloc hp _ =? 0); [exact N|].
  destruct (Z.leb_spec ng 1) as [G|G].
  - rewrite (proj2 (Z.leb_le _ _)) in N by tauto. destruct N as (b & Eb & I & V & _). exists b.
    split; [exact Eb|]. split; [eapply r_detailed; eauto|].
    rewrite (objects_eq _ _ I), (limits_eq _ _ I), (counts_eq _ _ I), (bi_dsize _ _ I). repeat split; reflexivity.
  - rewrite (proj2 (Z.leb_gt _ _)) in N by (rewrite E; unfold tot, empty; cbn [a_ms a_mo a_md a_mg]; lia). exact N.
Qed.
