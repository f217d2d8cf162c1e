(* New buffers, copies, files. *)
From Coq Require Import ZArith List Bool Lia.
From Verif Require Import MBuf Alignment MemPool Buffer MBufSpec MBufMem MBufAbs MBufRemap
  MBufReserve MBufInit BufferProofs BufferReserve.
Import ListNotations.
Local Open Scope Z_scope.

Lemma flags_lor f : Z.land (Z.lor f POOL_FLAGS) POOL_FLAGS = POOL_FLAGS.
Proof.
  apply Z.bits_inj'. intros n _. rewrite Z.land_spec, Z.lor_spec.
  destruct (Z.testbit f n), (Z.testbit POOL_FLAGS n); reflexivity.
Qed.

(* the capacity a new buffer gets *)
Definition new_capacity (cap : Z) : Z := round8 (if 128 <=? cap then cap else 128).

Lemma new_capacity_ge cap : 128 <= new_capacity cap /\ cap <= new_capacity cap /\
  new_capacity cap < Z.max cap 128 + 8 /\ new_capacity cap mod 8 = 0.
Proof.
  unfold new_capacity. destruct (Z.leb_spec 128 cap).
  - pose proof (round8_spec cap). lia.
  - pose proof (round8_spec 128). lia.
Qed.

Section New.
Variables (hp : heap) (pool_addr cap : Z).
Hypothesis Hh : heap_ok hp.
Hypothesis Hpa : pool_addr <> 0.
Hypothesis Hov : cap + 64 < 2 ^ 64.

Lemma buf_allocate_all flags : Z.land flags F_MEMPOOL = F_MEMPOOL ->
  if h_malloc hp (new_capacity cap + 8) =? 0 then buf_allocate hp pool_addr cap flags = Some None
  else exists b, buf_allocate hp pool_addr cap flags = Some (Some b) /\ binv b (empty 0 0 0 0) /\
    bview b (empty 0 0 0 0) /\ data_capacity (b_h b) = new_capacity cap.
Proof.
  intros Hf. unfold buf_allocate. rewrite Hf, Z.eqb_refl.
  pose proof (new_capacity_ge cap) as (G1 & G2 & G3 & G4).
  unfold new_capacity in *. set (n := if 128 <=? cap then cap else 128) in *.
  assert (Hn : 128 <= n /\ cap <= n /\ n + 32 < 2 ^ 64)
    by (unfold n; destruct (Z.leb_spec 128 cap); lia).
  destruct Hn as (Hn1 & Hn2 & Hn3). clearbody n.
  pose proof (round8_spec n) as (R1 & R2).
  unfold block_reserve, pool_reserve_aligned, pool_set_chunk, pool_preset.
  cbn [p_capacity p_chunk p_begin p_size p_buffer p_offset].
  rewrite (ltb_true 0 n) by lia. change (0 <? 8) with true. cbn [andb].
  pose proof (pool_init_8 hp n Hh ltac:(lia) Hn3) as PI. cbv zeta in PI.
  destruct (Z.eqb_spec (h_malloc hp (round8 n + 8)) 0) as [M0|M0].
  { rewrite PI. change (p_buffer pool_preset =? 0) with true. cbv iota.
    now rewrite andb_false_r. }
  set (q := pool_init_aligned (h_malloc hp) n 8 8) in *.
  destruct PI as (I1 & I2 & I3 & I4 & I5 & I6 & I7 & I8 & _). clearbody q.
  rewrite (eqb_false (p_buffer q)) by assumption.
  change (0 =? 0) with true. cbn [negb andb]. cbv iota zeta.
  rewrite (eqb_false pool_addr) by assumption. cbn [negb andb].
  destruct (fresh_block_spec hp q []) as (FB & FW & _).
  { lia. } { cbn [length]. pose proof (Z.div_pos (p_capacity q) 8). lia. }
  set (m1 := fresh_block hp q []) in *. clearbody m1.
  pose proof (Z.div_mod (p_capacity q) 8 ltac:(lia)).
  pose proof (Z.mod_pos_bound (p_capacity q) 8 ltac:(lia)).
  assert (B8 : p_begin q = 8 * (p_begin q / 8)) by now apply mod8_eq.
  rewrite append_8; try lia. 2:{ now rewrite I4. }
  cbn [bind]. unfold alloc_valid. cbn [r_ptr r_length]. rewrite I4, Z.add_0_r.
  rewrite eqb_false, ltb_true by lia. cbn [negb andb].
  apply mod8_eq in R2.
  destruct (set_zero_ok m1 (p_begin q) 0 (round8 n) (round8 n / 8)) as (m2 & E2 & P2); try lia.
  rewrite E2. cbn [bind].
  pose proof (mput_base _ _ _ _ _ P2) as B2. pose proof (mput_len _ _ _ _ _ P2) as W2.
  unfold init_on_flat_memory.
  assert (Eb : p_begin q = mbase m2) by congruence. rewrite Eb in *.
  destruct (mb_init_ok m2 0 0 0 0 (round8 n)) as (m3 & E3 & R3 & B3 & W3); try lia.
  { unfold header_length. rewrite eqb_false by lia.
    rewrite (rd_ok m2 _ 2) by lia. cbn [bind]. rewrite (mput_in _ _ _ _ _ _ P2) by lia. reflexivity. }
  { change (tot (empty 0 0 0 0)) with 16. lia. }
  rewrite E3. cbn [bind]. rewrite <- B3 in *.
  rewrite (section_num_ok _ _ (re_h _ _ _ R3)), (section_data_ok _ _ (re_h _ _ _ R3))
    by (unfold OBJECTS_ID; auto). cbn [bind].
  eexists. split; [reflexivity|]. split; [|split; reflexivity].
  split; cbn [b_h b_pool b_mem data_addr data_size data_capacity num_objects ds_addr p_begin
    pool_set_size p_size p_capacity p_chunk]; try lia; try congruence; try reflexivity; try exact R3.
  - now rewrite Z.add_0_l.
  - change (tot (empty 0 0 0 0)) with 16. lia.
  - unfold has_flags. cbn [ds_flags]. apply Z.eqb_eq. apply flags_lor.
Qed.

Lemma buf_new_all :
  if h_malloc hp (new_capacity cap + 8) =? 0 then buf_new hp pool_addr cap = Some None
  else exists b, buf_new hp pool_addr cap = Some (Some b) /\ binv b (empty 0 0 0 0) /\
    bview b (empty 0 0 0 0) /\ data_capacity (b_h b) = new_capacity cap.
Proof.
  pose proof (buf_allocate_all F_MEMPOOL eq_refl) as H. unfold buf_new.
  destruct (h_malloc hp (new_capacity cap + 8) =? 0).
  - rewrite H. reflexivity.
  - destruct H as (b & E & I & V & C). rewrite E. cbn [bind].
    pose proof (buf_reset_all b _ I 0 0 0 0) as X. cbv zeta in X.
    change (tot (empty 0 0 0 0)) with 16 in X.
    pose proof (new_capacity_ge cap) as (G1 & _).
    rewrite leb_true in X by lia. destruct X as (b' & E' & I' & V'); try lia.
    unfold buf_reset. rewrite E'. cbn [bind]. exists b'. split; [reflexivity|]. split; [assumption|].
    split; [assumption|]. rewrite <- C.
    clear - E' I. unfold buf_reset_detailed in E'.
    destruct (uses_datastore (b_h b) && allow_modify (b_h b) && allow_clear (b_h b)); [|discriminate].
    destruct (mb_init _ _ _ _ _ _ _) as [[[[|] [l|]] m']|]; cbn [bind] in E'; try discriminate.
    destruct (objects_index_begin m' (data_addr (b_h b))); cbn [bind] in E'; [|discriminate].
    injection E' as <-. reflexivity.
Qed.
End New.

(* ------------------------------------------------------------------ *)
(* the words of a block that holds A, written at the begin of another block *)
Definition words (m : mem) (n : Z) (ws : list Z) : Prop :=
  zlen ws = n /\ forall j, 0 <= j < n -> nth (Z.to_nat j) ws 0 = word m j.

Lemma read_words b A : binv b A ->
  exists ws, rdn (b_mem b) (data_addr (b_h b)) (Z.to_nat (data_size (b_h b) / 8)) = Some ws /\
    words (b_mem b) (tot A) ws.
Proof.
  intros I. pose proof (bi_facts b A I) as (P & Q & T16 & Tw & _).
  rewrite (bi_addr _ _ I), (bi_dsize _ _ I), Z.mul_comm, Z.div_mul by lia.
  destruct (rdn_ok (Z.to_nat (tot A)) (b_mem b) (mbase (b_mem b)) 0) as (ws & E & L & G); try lia.
  exists ws. split; [exact E|]. split; [unfold zlen; lia|]. intros j Hj. now rewrite G by lia.
Qed.

Lemma load_words b A0 A m0 ws : binv b A0 -> repr (stored_base m0) m0 A -> words m0 (tot A) ws ->
  8 * tot A <= data_capacity (b_h b) ->
  exists m', wrn (b_mem b) (data_addr (b_h b)) ws = Some m' /\
    mbase m' = mbase (b_mem b) /\ wlen m' = wlen (b_mem b) /\ repr (stored_base m0) m' A /\
    base_ok (mbase m') A.
Proof.
  intros I R (L & W) C. pose proof (bi_facts b A0 I) as (P & Q & T16 & Tw & Cw & Cw' & Sz & Se & Sw).
  pose proof (bi_cap _ _ I). pose proof (bi_top _ _ I). unfold zlen in L.
  destruct (wrn_ok ws (b_mem b) (data_addr (b_h b)) 0) as (m' & E & Pm).
  { rewrite (bi_addr _ _ I). lia. } { lia. } { intros _. lia. }
  exists m'. split; [exact E|].
  pose proof (mput_base _ _ _ _ _ Pm) as B'. pose proof (mput_len _ _ _ _ _ Pm) as W'.
  split; [exact B'|]. split; [exact W'|]. split.
  - apply (repr_frame _ m0); auto; [lia|]. intros j Hj.
    rewrite (mput_in _ _ _ _ _ _ Pm) by lia. rewrite Z.sub_0_r. now apply W.
  - split; [lia|]. split; [congruence|]. lia.
Qed.

Section Load.
Variables (b : buffer) (A0 A : abs) (m0 : mem) (ws : list Z).
Hypothesis I : binv b A0.
Hypothesis R : repr (stored_base m0) m0 A.
Hypothesis W : words m0 (tot A) ws.
Hypothesis C : 8 * tot A <= data_capacity (b_h b).

(* Buffer_refresh after the words were written *)
Lemma load_refresh : exists m' r b', wrn (b_mem b) (data_addr (b_h b)) ws = Some m' /\
  buf_refresh (Buffer (b_h b) (b_pool b) m') = Some (r, b') /\
  (r = true -> binv b' A /\ bview b' A) /\
  (r = true <-> stored_base m0 = mbase (b_mem b) \/ remappable A).
Proof.
  destruct (load_words b A0 A m0 ws I R W C) as (m1 & E1 & B1 & W1 & R1 & Ok1).
  exists m1. pose proof (bi_facts b A0 I) as (P & Q & T16 & Tw & Cw & Cw' & Sz & Se & Sw).
  pose proof (bi_flags _ _ I) as FL. pose proof (bi_ds _ _ I) as DS.
  unfold buf_refresh. cbn [b_h b_pool b_mem].
  rewrite fl_ds, fl_remap by assumption. cbn [andb].
  rewrite (bi_addr _ _ I). rewrite eqb_false by lia. rewrite Q. change (0 =? 0) with true.
  cbn [negb andb].
  assert (NR : needs_remapping m1 (mbase (b_mem b)) = Some (negb (stored_base m0 =? mbase (b_mem b)))).
  { unfold needs_remapping. pose proof (re_len _ _ _ R1).
    assert (16 <= tot A).
    { pose proof (ok_bounds A (re_ok _ _ _ R)). unfold tot. lia. }
    rewrite (rd_ok m1 _ 0) by lia. cbn [bind]. rewrite (re_0 _ _ _ R1).
    pose proof (re_base _ _ _ R) as (Pb & _). rewrite (eqb_false (stored_base m0) 0) by lia.
    now rewrite andb_true_r. }
  rewrite NR. cbn [bind].
  assert (exists r m2, (if negb (stored_base m0 =? mbase (b_mem b)) then mb_remap m1 (mbase (b_mem b))
    else Some (true, m1)) = Some (r, m2) /\ (r = true -> repr (mbase m2) m2 A) /\
    mbase m2 = mbase (b_mem b) /\ wlen m2 = wlen (b_mem b) /\
    (r = true <-> stored_base m0 = mbase (b_mem b) \/ remappable A))
    as (r & m2 & E2 & R2 & B2 & W2 & T2).
  { destruct (Z.eqb_spec (stored_base m0) (mbase (b_mem b))) as [Eb|Eb]; cbn [negb].
    - exists true, m1. split; [reflexivity|]. split; [rewrite B1, <- Eb; auto|].
      split; [assumption|]. split; [assumption|]. tauto.
    - destruct (mb_remap_all (stored_base m0) (mbase m1) A Ok1 m1 R1 eq_refl)
        as (r & m2 & E2 & T2 & R2 & (F1 & F2 & F3)).
      rewrite B1 in *. exists r, m2. split; [exact E2|].
      split; [rewrite F1; assumption|]. split; [congruence|].
      split; [congruence|]. exact T2. }
  rewrite E2. cbn [bind]. destruct r.
  - specialize (R2 eq_refl). rewrite <- B2. rewrite (buffer_length_ok _ _ (re_h _ _ _ R2)).
    cbn [bind]. destruct (view_ok b m2 A (b_h b) R2) as (V1 & V2 & V3).
    rewrite V1. cbn [bind]. rewrite V2. cbn [bind]. rewrite ltb_false by assumption.
    eexists true, _. split; [rewrite B2, <- (bi_addr _ _ I); exact E1|]. split; [reflexivity|].
    split; [|rewrite B2; exact T2].
    intros _. split; [|reflexivity].
    pose proof (bi_begin _ _ I). pose proof (bi_len _ _ I). pose proof (bi_cap _ _ I).
    pose proof (bi_top _ _ I).
    split; cbn [b_h b_pool b_mem data_addr data_size data_capacity num_objects ds_addr];
      try congruence; try apply I; try lia; try exact R2.
  - eexists false, _. split; [rewrite <- (bi_addr _ _ I); exact E1|]. split; [reflexivity|].
    split; [discriminate|exact T2].
Qed.

(* Buffer_remap after the words were written, when the block moved *)
Lemma load_remap : stored_base m0 <> mbase (b_mem b) ->
  exists m' r b', wrn (b_mem b) (data_addr (b_h b)) ws = Some m' /\
  buf_remap (Buffer (b_h b) (b_pool b) m') = Some (r, b') /\
  (r = true -> binv b' A /\ bview b' A) /\ (r = true <-> remappable A).
Proof.
  intros Hne.
  destruct (load_words b A0 A m0 ws I R W C) as (m1 & E1 & B1 & W1 & R1 & Ok1).
  exists m1. pose proof (bi_facts b A0 I) as (P & Q & T16 & Tw & Cw & Cw' & Sz & Se & Sw).
  pose proof (bi_flags _ _ I) as FL. pose proof (bi_ds _ _ I) as DS.
  unfold buf_remap. cbn [b_h b_pool b_mem]. rewrite fl_remap by assumption.
  rewrite (bi_addr _ _ I). pose proof (re_len _ _ _ R1).
  assert (16 <= tot A).
  { pose proof (ok_bounds A (re_ok _ _ _ R)). unfold tot. lia. }
  rewrite (rd_ok m1 _ 0) by lia. cbn [bind]. rewrite (re_0 _ _ _ R1).
  pose proof (re_base _ _ _ R) as (Pb & _).
  rewrite (eqb_false (stored_base m0) 0), (eqb_false _ _ Hne), (eqb_false (mbase (b_mem b)) 0) by lia.
  cbn [negb andb].
  destruct (mb_remap_all (stored_base m0) (mbase m1) A Ok1 m1 R1 eq_refl)
    as (r & m2 & E2 & T2 & R2 & (F1 & F2 & F3)).
  rewrite B1 in E2. rewrite E2. cbn [bind].
  assert (T2' : r = true <-> remappable A) by (rewrite T2; rewrite B1; tauto).
  assert (B2 : mbase m2 = mbase (b_mem b)) by congruence.
  destruct r.
  - specialize (R2 eq_refl). rewrite <- F1 in R2. pose proof (re_len _ _ _ R2) as L2.
    rewrite <- B2. rewrite (rd_base _ _ (re_h _ _ _ R2)). cbn [bind].
    rewrite (rd_ok m2 (mbase m2 + 8) 1), (rd_ok m2 (mbase m2 + 16) 2) by lia. cbn [bind].
    rewrite (hr_1 _ _ _ (re_h _ _ _ R2)), (hr_2 _ _ _ (re_h _ _ _ R2)).
    destruct (view_ok b m2 A (b_h b) R2) as (V1 & V2 & V3). unfold objects_index_begin in V1.
    rewrite V1. cbn [bind]. rewrite V2. cbn [bind].
    eexists true, _. split; [rewrite B2, <- (bi_addr _ _ I); exact E1|]. split; [reflexivity|].
    split; [|exact T2'].
    intros _. split; [|reflexivity].
    pose proof (bi_begin _ _ I). pose proof (bi_len _ _ I). pose proof (bi_cap _ _ I).
    pose proof (bi_top _ _ I).
    split; cbn [b_h b_pool b_mem data_addr data_size data_capacity num_objects ds_addr];
      try congruence; try apply I; try lia; try exact R2.
  - eexists false, _. split; [rewrite <- (bi_addr _ _ I); exact E1|]. split; [reflexivity|].
    split; [discriminate|exact T2'].
Qed.
End Load.

Lemma binv_stored b A : binv b A -> stored_base (b_mem b) = mbase (b_mem b).
Proof. intros I. apply (re_0 _ _ _ (bi_repr _ _ I)). Qed.

(* Buffer_new_from_copy *)
Lemma from_copy_all hp pool_addr o A : heap_ok hp -> pool_addr <> 0 -> binv o A ->
  data_capacity (b_h o) + 64 < 2 ^ 64 ->
  (h_malloc hp (new_capacity (data_capacity (b_h o)) + 8) = 0 ->
     buf_new_from_copy hp pool_addr o = Some None) /\
  (h_malloc hp (new_capacity (data_capacity (b_h o)) + 8) <> 0 -> remappable A ->
     exists b', buf_new_from_copy hp pool_addr o = Some (Some b') /\ binv b' A /\ bview b' A) /\
  (forall b', buf_new_from_copy hp pool_addr o = Some (Some b') -> binv b' A /\ bview b' A).
Proof.
  intros Hh Hpa I Hov. pose proof (bi_facts o A I) as (P & Q & T16 & Tw & Cw & Cw' & Sz & Se & Sw).
  pose proof (bi_cap _ _ I) as Cap. pose proof (bi_fit _ _ I) as Fit.
  pose proof (buf_new_all hp pool_addr (data_capacity (b_h o)) Hh Hpa Hov) as N.
  unfold buf_new_from_copy. rewrite ltb_true by lia. rewrite (bi_addr _ _ I).
  rewrite eqb_false by lia. cbn [negb andb].
  destruct (Z.eqb_spec (h_malloc hp (new_capacity (data_capacity (b_h o)) + 8)) 0) as [M0|M0].
  - split; [now rewrite N|]. split; [tauto|]. rewrite N. discriminate.
  - split; [tauto|]. destruct N as (b & E & Ib & _ & Cb).
    rewrite E. cbn [bind]. rewrite (bi_dsize _ _ I). rewrite ltb_true by lia.
    replace (8 * tot A mod 8) with 0 by (rewrite Z.mul_comm, Z.mod_mul; lia).
    change (0 =? 0) with true. cbv iota.
    destruct (read_words o A I) as (ws & Ew & Ww). rewrite (bi_dsize _ _ I), (bi_addr _ _ I) in Ew.
    rewrite Ew. cbn [bind].
    assert (Cb' : 8 * tot A <= data_capacity (b_h b)).
    { rewrite Cb. pose proof (new_capacity_ge (data_capacity (b_h o))). lia. }
    assert (R0 : repr (stored_base (b_mem o)) (b_mem o) A)
      by (rewrite (binv_stored o A I); apply (bi_repr _ _ I)).
    destruct (load_refresh b _ A (b_mem o) ws Ib R0 Ww Cb') as (m' & r & b' & E1 & E2 & T1 & T2).
    rewrite E1. cbn [bind]. rewrite E2. cbn [bind]. split.
    + intros _ Hre. assert (r = true) as -> by (apply T2; auto). exists b'. split; [reflexivity|]. auto.
    + intros b2 E3. destruct r; [|discriminate]. assert (b' = b2) as <- by congruence. auto.
Qed.

(* Buffer_write_to_file *)
Lemma write_all b A : binv b A ->
  exists ws, buf_write b = Some (Some ws) /\ words (b_mem b) (tot A) ws.
Proof.
  intros I. pose proof (bi_facts b A I) as (P & Q & T16 & Tw & _).
  destruct (read_words b A I) as (ws & Ew & Ww). exists ws. split; [|exact Ww].
  unfold buf_write. rewrite Ew.
  rewrite (bi_addr _ _ I), (bi_dsize _ _ I), eqb_false, ltb_true by lia. cbn [negb andb].
  replace (8 * tot A mod 8) with 0 by (rewrite Z.mul_comm, Z.mod_mul; lia).
  reflexivity.
Qed.

(* Buffer_new_from_file of what Buffer_write_to_file wrote *)
Lemma from_file_all hp pool_addr o A f : heap_ok hp -> pool_addr <> 0 -> binv o A ->
  8 * tot A + 64 < 2 ^ 64 -> buf_write o = Some (Some f) ->
  h_malloc hp (new_capacity (8 * tot A) + 8) <> 0 -> remappable A ->
  (forall b, buf_new hp pool_addr (8 * tot A) = Some (Some b) ->
     mbase (b_mem b) <> mbase (b_mem o)) ->
  exists b', buf_new_from_file hp pool_addr f = Some (Some b') /\ binv b' A /\ bview b' A.
Proof.
  intros Hh Hpa I Hov Ef M0 Hre Hdiff.
  pose proof (bi_facts o A I) as (P & Q & T16 & Tw & Cw & Cw' & Sz & Se & Sw).
  destruct (write_all o A I) as (ws & Ew & Ww). rewrite Ef in Ew. injection Ew as <-.
  pose proof (buf_new_all hp pool_addr (8 * tot A) Hh Hpa Hov) as N.
  rewrite eqb_false in N by assumption. destruct N as (b & E & Ib & _ & Cb).
  unfold buf_new_from_file. destruct Ww as (L & W). unfold zlen in L. rewrite L.
  rewrite ltb_true by lia. rewrite E. cbn [bind].
  assert (Cb' : 8 * tot A <= data_capacity (b_h b)).
  { rewrite Cb. pose proof (new_capacity_ge (8 * tot A)). lia. }
  assert (R0 : repr (stored_base (b_mem o)) (b_mem o) A)
    by (rewrite (binv_stored o A I); apply (bi_repr _ _ I)).
  destruct (load_remap b _ A (b_mem o) f Ib R0 (conj L W) Cb') as (m' & r & b' & E1 & E2 & T1 & T2).
  { rewrite (binv_stored o A I). apply not_eq_sym. now apply Hdiff. }
  rewrite E1. cbn [bind]. rewrite E2. cbn [bind].
  assert (r = true) as -> by (now apply T2). exists b'. split; [reflexivity|]. auto.
Qed.

(* Buffer_read_from_file into a buffer that is large enough *)
Lemma read_all hp b A0 o A f : binv b A0 -> binv o A -> buf_write o = Some (Some f) ->
  8 * tot A <= data_capacity (b_h b) -> remappable A -> mbase (b_mem b) <> mbase (b_mem o) ->
  exists b', buf_read hp b f = Some (false, b') /\ binv b' A /\ bview b' A.
Proof.
  intros Ib I Ef Cb Hre Hne.
  pose proof (bi_facts o A I) as (P & Q & T16 & Tw & Cw & Cw' & Sz & Se & Sw).
  pose proof (bi_flags _ _ Ib) as FL. pose proof (bi_ds _ _ Ib) as DS.
  destruct (write_all o A I) as (ws & Ew & Ww). rewrite Ef in Ew. injection Ew as <-.
  unfold buf_read. destruct Ww as (L & W). unfold zlen in L. rewrite L.
  rewrite fl_clear, fl_modify, ltb_true by (assumption || lia). cbn [andb].
  rewrite leb_true by assumption. cbn [bind]. rewrite leb_true by assumption.
  assert (R0 : repr (stored_base (b_mem o)) (b_mem o) A)
    by (rewrite (binv_stored o A I); apply (bi_repr _ _ I)).
  destruct (load_remap b _ A (b_mem o) f Ib R0 (conj L W) Cb) as (m' & r & b' & E1 & E2 & T1 & T2).
  { rewrite (binv_stored o A I). now apply not_eq_sym. }
  rewrite E1. cbn [bind]. rewrite E2. cbn [bind].
  assert (r = true) as -> by (now apply T2). exists b'. split; [reflexivity|]. auto.
Qed.
