(* Files written for a given base address, and loading them. *)
From Coq Require Import ZArith List Bool Lia.
From Verif Require Import MBuf MBufSpec MBufMem MBufAbs MBufRemap MBufApply MBufReserve MBufInit
  MemPool Buffer BufferProofs BufferReserve BufferNew.
Import ListNotations.
Local Open Scope Z_scope.

(* f is a file holding the contents A, set up for the base address B *)
Definition file_of (f : list Z) (A : abs) (B : Z) : Prop :=
  exists m0, repr B m0 A /\ stored_base m0 = B /\ words m0 (tot A) f.

Lemma write_file b A f : binv b A -> buf_write b = Some (Some f) ->
  file_of f A (mbase (b_mem b)).
Proof.
  intros I E. destruct (write_all b A I) as (ws & E2 & W). rewrite E in E2.
  assert (f = ws) as -> by congruence.
  exists (b_mem b). split; [apply (bi_repr _ _ I)|]. split; [now apply (binv_stored b A)|assumption].
Qed.

Lemma file_tot f A B : file_of f A B -> 8 * Z.of_nat (length f) = 8 * tot A /\ 16 <= tot A /\ 0 < B.
Proof.
  intros (m0 & R & _ & L & _). unfold zlen in L. pose proof (ok_bounds A (re_ok _ _ _ R)).
  pose proof (re_base _ _ _ R) as (P & _). unfold tot in *. lia.
Qed.

(* Buffer_new_from_file *)
Lemma from_words_all hp pool_addr A f B : heap_ok hp -> pool_addr <> 0 -> file_of f A B ->
  8 * tot A + 64 < 2 ^ 64 -> h_malloc hp (new_capacity (8 * tot A) + 8) <> 0 ->
  (forall b, buf_new hp pool_addr (8 * tot A) = Some (Some b) -> mbase (b_mem b) <> B) ->
  (remappable A ->
   exists b', buf_new_from_file hp pool_addr f = Some (Some b') /\ binv b' A /\ bview b' A) /\
  (~ remappable A -> buf_new_from_file hp pool_addr f = Some None) /\
  (forall b', buf_new_from_file hp pool_addr f = Some (Some b') -> binv b' A /\ bview b' A).
Proof.
  intros Hh Hpa F Hov M0 Hdiff. destruct (file_tot f A B F) as (L8 & T16 & PB).
  destruct F as (m0 & R & SB & W). rewrite <- SB in R.
  pose proof (buf_new_all hp pool_addr (8 * tot A) Hh Hpa Hov) as N.
  rewrite eqb_false in N by assumption. destruct N as (b & E & Ib & _ & Cb).
  unfold buf_new_from_file. rewrite L8. rewrite ltb_true by lia. rewrite E. cbn [bind].
  assert (Cb' : 8 * tot A <= data_capacity (b_h b)).
  { rewrite Cb. pose proof (new_capacity_ge (8 * tot A)). lia. }
  destruct (load_remap b _ A m0 f Ib R W Cb') as (m' & r & b' & E1 & E2 & T1 & T2).
  { rewrite SB. apply not_eq_sym. now apply Hdiff. }
  rewrite E1. cbn [bind]. rewrite E2. cbn [bind]. split; [|split].
  - intros Hre. assert (r = true) as -> by (now apply T2). exists b'. split; [reflexivity|]. auto.
  - intros Hre. destruct r; [|reflexivity]. exfalso. apply Hre. now apply T2.
  - intros b2 E3. destruct r; [|discriminate]. assert (b' = b2) as <- by congruence. auto.
Qed.

(* Buffer_read_from_file into a buffer that is large enough *)
Lemma read_words_all hp b A0 A f B : binv b A0 -> file_of f A B ->
  8 * tot A <= data_capacity (b_h b) -> remappable A -> mbase (b_mem b) <> B ->
  exists b', buf_read hp b f = Some (false, b') /\ binv b' A /\ bview b' A.
Proof.
  intros Ib F Cb Hre Hne. destruct (file_tot f A B F) as (L8 & T16 & PB).
  destruct F as (m0 & R & SB & W). rewrite <- SB in R.
  pose proof (bi_flags _ _ Ib) as FL. pose proof (bi_ds _ _ Ib) as DS.
  unfold buf_read. rewrite L8.
  rewrite fl_clear, fl_modify, ltb_true by (assumption || lia). cbn [andb].
  rewrite leb_true by assumption. cbn [bind]. rewrite leb_true by assumption.
  destruct (load_remap b _ A m0 f Ib R W Cb) as (m' & r & b' & E1 & E2 & T1 & T2).
  { rewrite SB. now apply not_eq_sym. }
  rewrite E1. cbn [bind]. rewrite E2. cbn [bind].
  assert (r = true) as -> by (now apply T2). exists b'. split; [reflexivity|]. auto.
Qed.

(* Buffer_write_to_fp_normalized_addr *)
Lemma write_normalized_all b A N : binv b A -> bview b A -> base_ok N A ->
  exists r f b', buf_write_normalized b N = Some (r, Some f, b') /\ file_of f A N /\
    (r = true <-> N = mbase (b_mem b) \/ remappable A) /\
    (r = true -> binv b' A /\ bview b' A).
Proof.
  intros I V HN. pose proof (bi_facts b A I) as (P & Q & T16 & Tw & _).
  pose proof (bi_flags _ _ I) as FL. pose proof (bi_ds _ _ I) as DS.
  pose proof (bi_repr _ _ I) as R. pose proof HN as (N1 & N2 & N3).
  unfold buf_write_normalized. rewrite (bi_addr _ _ I), (bi_dsize _ _ I).
  rewrite eqb_false, ltb_true by lia. cbn [negb andb].
  replace (8 * tot A mod 8) with 0 by (rewrite Z.mul_comm, Z.mod_mul; lia).
  replace (8 * tot A / 8) with (tot A) by (rewrite Z.mul_comm, Z.div_mul; lia).
  change (0 =? 0) with true. rewrite fl_ds, fl_remap by assumption. cbn [andb].
  destruct (Z.eqb_spec (mbase (b_mem b)) N) as [Eb|Eb]; cbn [negb bind].
  - destruct (read_words b A I) as (ws & Ew & Ww).
    rewrite (bi_addr _ _ I), (bi_dsize _ _ I), Z.mul_comm, Z.div_mul in Ew by lia.
    rewrite Ew. cbn [bind]. rewrite (needs_remapping_ok _ _ (re_h _ _ _ R)). cbn [bind].
    eexists true, ws, _. split; [reflexivity|]. split; [|split].
    + exists (b_mem b). rewrite <- Eb. split; [assumption|]. split; [now apply (binv_stored b A)|assumption].
    + split; auto.
    + intros _. destruct b as [h p m]. cbn [b_h b_pool b_mem] in *. auto.
  - destruct (apply_addr_offset_ok (b_mem b) A N R HN ltac:(congruence)) as (m1 & E1 & R1 & B1 & W1).
    rewrite E1. cbn [bind]. pose proof (re_len _ _ _ R1) as L1.
    destruct (rdn_ok (Z.to_nat (tot A)) m1 (mbase (b_mem b)) 0) as (ws & E & L & G); try lia.
    rewrite E. cbn [bind]. unfold needs_remapping. rewrite (rd_ok m1 _ 0) by lia. cbn [bind].
    rewrite (re_0 _ _ _ R1). rewrite eqb_false, eqb_false by congruence || lia. cbn [negb andb].
    unfold buf_remap. cbn [b_h b_pool b_mem]. rewrite fl_remap by assumption.
    rewrite (bi_addr _ _ I). rewrite (rd_ok m1 _ 0) by lia. cbn [bind].
    rewrite (re_0 _ _ _ R1). rewrite !eqb_false by congruence || lia. cbn [negb andb].
    assert (Ok1 : base_ok (mbase m1) A) by (rewrite B1; apply (re_base _ _ _ R)).
    destruct (mb_remap_all N (mbase m1) A Ok1 m1 R1 eq_refl)
      as (r & m2 & E2 & T2 & R2 & (F1 & F2 & F3)).
    rewrite B1 in E2. rewrite E2. cbn [bind].
    assert (T2' : r = true <-> N = mbase (b_mem b) \/ remappable A) by (rewrite T2; rewrite B1; tauto).
    assert (B2 : mbase m2 = mbase (b_mem b)) by congruence.
    assert (FO : file_of ws A N).
    { exists m1. split; [assumption|]. split; [apply (re_0 _ _ _ R1)|].
      split; [unfold zlen; lia|]. intros j Hj. now rewrite G by lia. }
    destruct r.
    + specialize (R2 eq_refl). rewrite <- F1 in R2. pose proof (re_len _ _ _ R2) as L2.
      rewrite <- B2. rewrite (rd_base _ _ (re_h _ _ _ R2)). cbn [bind].
      rewrite (rd_ok m2 (mbase m2 + 8) 1), (rd_ok m2 (mbase m2 + 16) 2) by lia. cbn [bind].
      rewrite (hr_1 _ _ _ (re_h _ _ _ R2)), (hr_2 _ _ _ (re_h _ _ _ R2)).
      destruct (view_ok b m2 A (b_h b) R2) as (V1 & V2 & V3). unfold objects_index_begin in V1.
      rewrite V1. cbn [bind]. rewrite V2. cbn [bind].
      eexists true, ws, _. split; [reflexivity|]. split; [assumption|].
      split; [rewrite B2; exact T2'|].
      intros _. split; [|reflexivity].
      pose proof (bi_begin _ _ I). pose proof (bi_len _ _ I). pose proof (bi_cap _ _ I).
      pose proof (bi_top _ _ I).
      split; cbn [b_h b_pool b_mem data_addr data_size data_capacity num_objects ds_addr];
        try congruence; try apply I; try lia; try exact R2.
    + eexists false, ws, _. split; [reflexivity|]. split; [assumption|].
      split; [exact T2'|discriminate].
Qed.
