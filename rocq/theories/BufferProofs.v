(* Growing a buffer: the memory pool, the capacity, the maxima of the sections. *)
From Coq Require Import ZArith List Bool Lia.
From Verif Require Import MBuf Alignment MemPool Buffer MBufSpec MBufMem MBufAbs MBufRemap
  MBufReserve MBufInit.
Import ListNotations.
Local Open Scope Z_scope.

(* malloc returns NULL or the address of a block that does not reach the end of the address
   space *)
Definition heap_ok (hp : heap) : Prop :=
  forall n, h_malloc hp n <> 0 -> 0 < h_malloc hp n /\ h_malloc hp n + n < 2 ^ 64.

(* flags of a buffer that owns a memory pool *)
Definition POOL_FLAGS : Z :=
  F_USES + F_OWNS + F_MEMPOOL + F_APPENDS + F_CLEAR + F_REMAPPING + F_RESIZE.

(* the buffer, its pool and its block agree and the block holds A *)
Record binv (b : buffer) (A : abs) : Prop := Binv {
  bi_addr : data_addr (b_h b) = mbase (b_mem b);
  bi_begin : p_begin (b_pool b) = mbase (b_mem b);
  bi_repr : repr (mbase (b_mem b)) (b_mem b) A;
  bi_cap : data_capacity (b_h b) = p_size (b_pool b);
  bi_mod : p_size (b_pool b) mod 8 = 0;
  bi_room : p_size (b_pool b) <= p_capacity (b_pool b);
  bi_len : wlen (b_mem b) = p_capacity (b_pool b) / 8;
  bi_top : mbase (b_mem b) + p_capacity (b_pool b) < 2 ^ 64;
  bi_chunk : p_chunk (b_pool b) = 8;
  bi_fit : 8 * tot A <= p_size (b_pool b);
  bi_flags : has_flags (b_h b) POOL_FLAGS = true;
  bi_ds : ds_addr (b_h b) <> 0;
  bi_dsize : data_size (b_h b) = 8 * tot A;
  bi_num : num_objects (b_h b) = zlen (a_objs A) }.

(* the address of the object index in the handle is right *)
Definition bview (b : buffer) (A : abs) : Prop :=
  object_addr (b_h b) = mbase (b_mem b) + 8 * (spos A 4 + 2).

Lemma has_flags_sub h F f : has_flags h F = true -> Z.land F f = f -> has_flags h f = true.
Proof.
  unfold has_flags. intros H E. apply Z.eqb_eq in H. apply Z.eqb_eq.
  rewrite <- E at 1. rewrite Z.land_assoc. now rewrite H.
Qed.

Section Flags.
Variables (h : handle).
Hypothesis H : has_flags h POOL_FLAGS = true.
Hypothesis D : ds_addr h <> 0.
Lemma fl_ds : has_datastore h = true.
Proof. unfold has_datastore. now rewrite eqb_false. Qed.
Lemma fl_owns : owns_datastore h = true.
Proof. now apply (has_flags_sub h POOL_FLAGS). Qed.
Lemma fl_uses : uses_datastore h = true.
Proof. unfold uses_datastore. rewrite fl_ds. now apply (has_flags_sub h POOL_FLAGS). Qed.
Lemma fl_clear : allow_clear h = true.
Proof. now apply (has_flags_sub h POOL_FLAGS). Qed.
Lemma fl_append : allow_append h = true.
Proof. now apply (has_flags_sub h POOL_FLAGS). Qed.
Lemma fl_modify : allow_modify h = true.
Proof. unfold allow_modify. now rewrite fl_clear, fl_append. Qed.
Lemma fl_remap : allow_remapping h = true.
Proof. now apply (has_flags_sub h POOL_FLAGS). Qed.
Lemma fl_resize : allow_resize h = true.
Proof. now apply (has_flags_sub h POOL_FLAGS). Qed.
Lemma fl_pool : uses_mempool h = true.
Proof. now apply (has_flags_sub h POOL_FLAGS). Qed.
End Flags.

Lemma repr_frame b m m' A : repr b m A -> tot A <= wlen m' ->
  (forall j, 0 <= j < tot A -> word m' j = word m j) -> repr b m' A.
Proof.
  intros R Hw Hf. pose proof (re_h _ _ _ R) as H. pose proof (hr_ok _ _ _ H) as Hok.
  pose proof (ok_bounds A Hok) as (Bc & Bo & Bd & Bg).
  pose proof (layout A Hok) as (L3 & L4 & L5 & L6 & Lt & N3 & N4 & N5 & N6).
  split.
  - destruct H. split; auto.
    + rewrite Hf; auto; lia.
    + rewrite Hf; auto; lia.
    + rewrite Hf; auto; lia.
    + intros id Hid. rewrite Hf; auto. secs Hid; lia.
    + intros id Hid. rewrite Hf; auto. secs Hid; lia.
    + intros id Hid. rewrite Hf; auto. secs Hid; lia.
  - intros k c Hk. assert (k < length (a_cells A))%nat by (apply nth_error_Some; congruence).
    unfold zlen in *. rewrite Hf by lia. now apply (re_cell _ _ _ R).
  - intros i s n t Hi. assert (i < length (a_objs A))%nat by (apply nth_error_Some; congruence).
    unfold zlen in *. rewrite !Hf by lia. now apply (re_obj _ _ _ R).
  - intros j k Hj. assert (j < length (a_dps A))%nat by (apply nth_error_Some; congruence).
    unfold zlen in *. rewrite !Hf by lia. now apply (re_dp _ _ _ R).
Qed.

Definition round8 (n : Z) : Z := 8 * ((n + 7) / 8).

Lemma round8_spec n : n <= round8 n < n + 8 /\ round8 n mod 8 = 0.
Proof.
  unfold round8. pose proof (Z.div_mod (n + 7) 8 ltac:(lia)).
  pose proof (Z.mod_pos_bound (n + 7) 8 ltac:(lia)).
  split; [lia|]. rewrite Z.mul_comm. apply Z.mod_mul. lia.
Qed.

Lemma mod8_eq n : n mod 8 = 0 <-> n = 8 * (n / 8).
Proof. split; intros H; [now apply Z_div_exact_full_2|]. rewrite H, Z.mul_comm. now apply Z.mod_mul. Qed.

(* what the pool asks malloc for *)
Lemma init_bytes_8 n : 8 <= n -> n + 32 < 2 ^ 64 -> init_bytes n 8 8 = round8 n + 8.
Proof.
  intros Hn Hl. unfold init_bytes.
  replace (if 8 <? n then n else 8) with n by (destruct (Z.ltb_spec 8 n); lia).
  rewrite (u64_id (8 + n)) by lia.
  pose proof (round8_spec n) as (R1 & R2).
  pose proof (Z.div_mod (8 + n) 8 ltac:(lia)). pose proof (Z.mod_pos_bound (8 + n) 8 ltac:(lia)).
  apply mod8_eq in R2.
  destruct (Z.ltb_spec ((8 + n) / 8 * 8) (8 + n)).
  - rewrite u64_id by lia. lia.
  - lia.
Qed.

(* a freshly allocated block *)
Lemma pool_init_8 hp n : heap_ok hp -> 8 <= n -> n + 32 < 2 ^ 64 ->
  let q := pool_init_aligned (h_malloc hp) n 8 8 in
  if h_malloc hp (round8 n + 8) =? 0 then q = pool_preset
  else p_buffer q <> 0 /\ 0 < p_begin q /\ p_begin q mod 8 = 0 /\ p_size q = 0 /\ p_chunk q = 8 /\
    round8 n <= p_capacity q /\ p_capacity q <= round8 n + 8 /\
    p_begin q + p_capacity q < 2 ^ 64 /\ p_buffer q = h_malloc hp (round8 n + 8).
Proof.
  intros Hh Hn Hl. cbv zeta. pose proof (round8_spec n) as (R1 & R2).
  unfold pool_init_aligned. change ((0 <? 8) && (0 <? 8)) with true. cbv iota.
  rewrite init_bytes_8 by assumption.
  set (N := round8 n + 8) in *. specialize (Hh N).
  set (a := h_malloc hp N) in *. clearbody a.
  assert (HN : N = round8 n + 8) by reflexivity. clearbody N.
  destruct (Z.eqb_spec a 0) as [E|E]; [reflexivity|].
  destruct (Hh E) as (A1 & A2). clear Hh.
  pose proof (Z.mod_pos_bound a 8 ltac:(lia)) as M. pose proof (Z.div_mod a 8 ltac:(lia)) as DM.
  set (o := if a mod 8 =? 0 then 0 else 8 - a mod 8).
  assert (Ho : 0 <= o <= 7 /\ (a + o) mod 8 = 0).
  { unfold o. destruct (Z.eqb_spec (a mod 8) 0) as [Z0|Z0].
    - rewrite Z.add_0_r. lia.
    - split; [lia|]. replace (a + (8 - a mod 8)) with ((a / 8 + 1) * 8) by lia. apply Z.mod_mul. lia. }
  clearbody o. cbn [p_buffer p_begin p_size p_chunk p_capacity].
  replace (if 0 <? o then u64 (N - o) else N) with (N - o).
  2:{ destruct (Z.ltb_spec 0 o); [rewrite u64_id; lia|lia]. }
  repeat split; lia.
Qed.

Lemma append_8 p n : p_chunk p = 8 -> 0 < p_begin p -> p_begin p mod 8 = 0 ->
  p_size p mod 8 = 0 -> 0 <= p_size p <= p_capacity p -> p_capacity p < 2 ^ 64 - 8 ->
  0 < n -> p_size p + round8 n <= p_capacity p ->
  pool_append_aligned p n 8 =
    Some (AllocResult (p_begin p + p_size p) (p_size p) (round8 n),
          pool_set_size p (p_size p + round8 n)).
Proof.
  intros Hc Hb Hm Hs Hr Ht Hn Hfit. unfold pool_append_aligned, next_begin_offset. rewrite Hc.
  replace (common2 8 8) with (Some 8) by (vm_compute; reflexivity). cbn [bind].
  change (8 =? 0) with false. cbv iota.
  rewrite Z.add_mod, Hm, Hs by lia. change ((0 + 0) mod 8) with 0. change (0 =? 0) with true.
  cbv zeta iota. change (0 =? 0) with true. cbn [negb andb]. rewrite leb_true by lia. cbn [bind].
  rewrite (eqb_false (p_begin p)), (eqb_false (p_size p)) by (unfold U64_MAX; lia).
  rewrite (ltb_true 0 n) by lia. change (0 <? 8) with true. cbn [negb andb].
  pose proof (round8_spec n) as (R1 & R2). apply mod8_eq in R2.
  pose proof (Z.div_mod n 8 ltac:(lia)). pose proof (Z.mod_pos_bound n 8 ltac:(lia)).
  replace (if n / 8 * 8 <? n then u64 (n / 8 * 8 + 8) else n / 8 * 8) with (round8 n).
  2:{ destruct (Z.ltb_spec (n / 8 * 8) n); [rewrite u64_id; lia|lia]. }
  rewrite ltb_true by (unfold U64_MAX; lia). rewrite leb_true by lia. reflexivity.
Qed.

Lemma fresh_block_spec hp q ws : 0 <= p_capacity q -> Z.of_nat (length ws) <= p_capacity q / 8 ->
  let m := fresh_block hp q ws in
  mbase m = p_begin q /\ wlen m = p_capacity q / 8 /\
  forall j, 0 <= j < Z.of_nat (length ws) -> word m j = nth (Z.to_nat j) ws 0.
Proof.
  intros Hc Hl. cbv zeta. unfold fresh_block. set (n := Z.to_nat (p_capacity q / 8)).
  assert (Hn : (length ws <= n)%nat) by (unfold n; lia).
  split; [reflexivity|]. split.
  - unfold wlen. cbn [mwords]. rewrite app_length, map_length, seq_length, firstn_length.
    pose proof (Z.div_pos (p_capacity q) 8 Hc ltac:(lia)). lia.
  - intros j Hj. unfold word. cbn [mwords]. rewrite firstn_all2 by assumption.
    rewrite app_nth1 by lia. reflexivity.
Qed.

Section Capacity.
Variables (hp : heap) (b : buffer) (A : abs).
Hypothesis Hh : heap_ok hp.
Hypothesis I : binv b A.
Local Notation h := (b_h b).
Local Notation p := (b_pool b).
Local Notation m := (b_mem b).

Lemma bi_facts : 0 < mbase m /\ mbase m mod 8 = 0 /\ 16 <= tot A /\ tot A <= wlen m /\
  8 * wlen m <= p_capacity p /\ p_capacity p < 8 * wlen m + 8 /\
  0 <= p_size p <= p_capacity p /\ p_size p = 8 * (p_size p / 8) /\ p_size p / 8 <= wlen m.
Proof.
  pose proof (bi_repr _ _ I) as R. pose proof (re_base _ _ _ R) as (P & Q & T).
  pose proof (re_ok _ _ _ R) as Hok. pose proof (ok_bounds A Hok) as (Bc & Bo & Bd & Bg).
  pose proof (bi_fit _ _ I). pose proof (bi_room _ _ I). pose proof (bi_len _ _ I) as L.
  pose proof (re_len _ _ _ R). pose proof (bi_mod _ _ I) as M. apply mod8_eq in M.
  pose proof (Z.div_mod (p_capacity p) 8 ltac:(lia)).
  pose proof (Z.mod_pos_bound (p_capacity p) 8 ltac:(lia)).
  assert (16 <= tot A) by (unfold tot; lia).
  repeat split; try lia.
Qed.

(* the outcome of Buffer_reserve_capacity *)
Lemma reserve_capacity_all n : 0 <= n -> n + 32 < 2 ^ 64 ->
  exists r b', buf_reserve_capacity hp b n = Some (r, b') /\
    (r = true -> binv b' A /\ n <= data_capacity (b_h b') /\
       object_addr (b_h b') = mbase (b_mem b') + 8 * spos A 4) /\
    (r = false -> b' = b \/
       ~ remappable A /\ h_malloc hp (round8 n + 8) <> 0 /\ data_capacity h < n) /\
    (data_capacity h < n ->
      n mod 8 = 0 /\ n <= p_capacity p \/ p_capacity p < n /\ h_malloc hp (round8 n + 8) <> 0 ->
      remappable A -> r = true) /\
    (n <= data_capacity h -> r = false) /\
    (p_capacity p < n -> h_malloc hp (round8 n + 8) = 0 -> r = false /\ b' = b).
Proof.
  intros Hn0 Hn. pose proof bi_facts as (P & Q & T16 & Tw & Cw & Cw' & Sz & Se & Sw).
  pose proof (bi_repr _ _ I) as R. pose proof (bi_fit _ _ I) as Fit.
  pose proof (re_base _ _ _ R) as (_ & _ & Ttop).
  pose proof (bi_cap _ _ I) as Cap. pose proof (bi_top _ _ I) as Top.
  pose proof (bi_flags _ _ I) as FL. pose proof (bi_ds _ _ I) as DS.
  unfold buf_reserve_capacity.
  rewrite fl_uses, fl_resize, fl_owns, fl_pool by assumption. cbn [andb].
  destruct (Z.ltb_spec (data_capacity h) n) as [Hlt|Hge]; cbn [andb].
  2:{ exists false, b. split; [reflexivity|]. split; [discriminate|]. split; [auto|].
      split; [lia|]. split; [auto|]. intros ? ?. auto. }
  rewrite leb_true by lia. rewrite ltb_true by lia.
  pose proof (round8_spec n) as (R1 & R2). pose proof R2 as R2'. apply mod8_eq in R2'.
  pose proof (round8_spec (n - p_size p)) as (X1 & X2). apply mod8_eq in X2.
  assert (X3 : p_size p + round8 (n - p_size p) = round8 n).
  { clear - Se R1 R2' X1 X2. lia. }
  (* common end: the pool q has room, the block m1 holds A *)
  assert (FIN : forall q m1, p_chunk q = 8 -> p_begin q = mbase m1 -> p_size q = p_size p ->
    0 <= p_size q <= p_capacity q -> mbase m1 + p_capacity q < 2 ^ 64 ->
    wlen m1 = p_capacity q / 8 -> round8 n <= p_capacity q -> repr (mbase m1) m1 A ->
    exists b', ('(rr, q') <- pool_append_aligned q (n - p_size p) 8 ;;
      if alloc_valid rr then
        o <- section_ptr m1 (p_begin q') OBJECTS_ID ;;
        m2 <- set_zero m1 (r_ptr rr) (r_length rr) ;;
        Some (true, Buffer (Handle (p_begin q') (data_size h) (header_size h) (p_size q')
                              o (num_objects h) (ds_flags h) (ds_addr h)) q' m2)
      else Some (true, Buffer h q' m1)) = Some (true, b') /\
      binv b' A /\ n <= data_capacity (b_h b') /\
      object_addr (b_h b') = mbase (b_mem b') + 8 * spos A 4).
  { intros q m1 Q1 Q2 Q3 Q4 Q5 Q6 Q7 R'. pose proof (re_base _ _ _ R') as (P' & M' & T').
    pose proof (re_len _ _ _ R') as Len'.
    pose proof (Z.div_mod (p_capacity q) 8 ltac:(lia)).
    pose proof (Z.mod_pos_bound (p_capacity q) 8 ltac:(lia)).
    assert (Sq : p_size q = 8 * (p_size q / 8)) by (rewrite Q3; exact Se).
    assert (B8 : mbase m1 = 8 * (mbase m1 / 8)) by now apply mod8_eq.
    rewrite append_8; try lia; try congruence.
    2:{ rewrite Q3. now apply (bi_mod _ _ I). }
    cbn [bind]. unfold alloc_valid. cbn [r_ptr r_length].
    rewrite eqb_false, ltb_true by lia. cbn [negb andb pool_set_size p_begin p_size].
    rewrite Q2. rewrite (section_ptr_ok _ _ (re_h _ _ _ R')) by (unfold OBJECTS_ID; auto).
    cbn [bind].
    destruct (set_zero_ok m1 (mbase m1 + p_size q) (p_size q / 8) (round8 (n - p_size p))
      (round8 (n - p_size p) / 8)) as (m2 & E2 & P2); try lia.
    rewrite E2. cbn [bind]. eexists. split; [reflexivity|].
    pose proof (mput_base _ _ _ _ _ P2) as B2. pose proof (mput_len _ _ _ _ _ P2) as W2.
    split.
    - split; cbn [b_h b_pool b_mem data_addr data_capacity data_size num_objects ds_addr p_begin
        pool_set_size p_size p_capacity p_chunk]; try lia; try congruence.
      + rewrite B2. apply (repr_frame _ m1); auto; [lia|]. intros j Hj.
        apply (mput_out _ _ _ _ _ _ P2); lia.
      + exact FL.
      + apply (bi_dsize _ _ I).
      + apply (bi_num _ _ I).
    - cbn [b_h b_mem data_capacity object_addr]. split; [lia|]. rewrite B2. reflexivity. }
  unfold block_reserve, pool_reserve_aligned. rewrite (bi_chunk _ _ I). change (0 <? 8) with true.
  destruct (Z.ltb_spec (p_capacity p) n) as [Hc|Hc]; cbn [andb].
  - (* a new block is needed *)
    pose proof (pool_init_8 hp n Hh ltac:(lia) Hn) as PI. cbv zeta in PI.
    destruct (Z.eqb_spec (h_malloc hp (round8 n + 8)) 0) as [M0|M0].
    + rewrite PI. change (p_buffer pool_preset =? 0) with true. cbv iota.
      replace (n - p_size p <=? remaining_bytes p) with false.
      2:{ symmetry. apply leb_false. unfold remaining_bytes. rewrite (bi_chunk _ _ I).
          rewrite u64_id by lia.
          pose proof (Z.div_mod (p_capacity p - p_size p) 8 ltac:(lia)).
          pose proof (Z.mod_pos_bound (p_capacity p - p_size p) 8 ltac:(lia)). lia. }
      destruct b as [h0 p0 m0]; cbn [b_h b_pool b_mem] in *.
      exists false, (Buffer h0 p0 m0). split; [reflexivity|]. split; [discriminate|].
      split; [auto|]. split; [intros _ [?|?]; lia|]. split; [lia|]. auto.
    + set (q := pool_init_aligned (h_malloc hp) n 8 8) in *.
      destruct PI as (I1 & I2 & I3 & I4 & I5 & I6 & I7 & I8 & _). clearbody q.
      rewrite (eqb_false (p_buffer q)) by assumption.
      rewrite (eqb_false (p_begin p)), (ltb_true 0 (p_size p)) by (rewrite ?(bi_begin _ _ I); lia).
      cbn [negb andb].
      set (q1 := pool_set_size q (p_size p)).
      assert (QC : p_capacity q1 = p_capacity q) by reflexivity.
      assert (QS : p_size q1 = p_size p) by reflexivity.
      assert (QB : p_begin q1 = p_begin q) by reflexivity.
      assert (QK : p_chunk q1 = p_chunk q) by reflexivity.
      clearbody q1.
      assert (RB : n - p_size p <= remaining_bytes q1).
      { unfold remaining_bytes. rewrite QC, QS, QK, I5. rewrite u64_id by lia.
        pose proof (Z.div_mod (p_capacity q - p_size p) 8 ltac:(lia)).
        pose proof (Z.mod_pos_bound (p_capacity q - p_size p) 8 ltac:(lia)). lia. }
      rewrite (leb_true _ _ RB). rewrite andb_false_r.
      destruct (fresh_block_spec hp q1 (firstn (Z.to_nat (p_size p / 8)) (mwords m)))
        as (FB & FW & FF).
      { lia. }
      { rewrite firstn_length. unfold wlen in *.
        pose proof (Z.div_le_mono (round8 n) (p_capacity q1) 8 ltac:(lia) ltac:(lia)). lia. }
      rewrite firstn_length in FF.
      set (m1 := fresh_block hp q1 (firstn (Z.to_nat (p_size p / 8)) (mwords m))) in *.
      clearbody m1. rewrite QC in FW.
      assert (RW : repr (mbase m) m1 A).
      { pose proof (Z.div_mod (p_capacity q) 8 ltac:(lia)).
        pose proof (Z.mod_pos_bound (p_capacity q) 8 ltac:(lia)).
        apply (repr_frame _ m); auto; [lia|]. intros j Hj. unfold wlen in *.
        rewrite FF by lia. unfold word.
        rewrite <- (firstn_skipn (Z.to_nat (p_size p / 8)) (mwords m)) at 2.
        rewrite app_nth1; [reflexivity|]. rewrite firstn_length. lia. }
      destruct (mb_remap_all (mbase m) (p_begin q1) A) with (m := m1) as (t & m2 & E2 & TR & R2'' & (F1 & F2 & F3)).
      { split; [lia|]. split; [congruence|]. lia. }
      { exact RW. } { congruence. }
      rewrite E2. cbn [bind].
      destruct t.
      * specialize (R2'' eq_refl).
        destruct (FIN q1 m2) as (b' & E3 & I3' & C3 & O3); try lia; try congruence.
        exists true, b'. split; [exact E3|]. split; [auto|]. split; [discriminate|].
        split; [auto|]. split; [lia|]. intros; contradiction.
      * eexists false, _. split; [reflexivity|]. split; [discriminate|].
        assert (NR : ~ remappable A).
        { intros C. assert (false = true) by (apply TR; auto). discriminate. }
        split; [auto|]. split; [intros _ _ C; contradiction|]. split; [auto|].
        intros; contradiction.
  - (* the pool has room for it already *)
    rewrite Z.eqb_refl. cbn [negb andb].
    destruct (Z.leb_spec (n - p_size p) (remaining_bytes p)) as [Hr|Hr].
    + cbn [bind].
      assert (round8 n <= p_capacity p).
      { unfold remaining_bytes in Hr. rewrite (bi_chunk _ _ I) in Hr. rewrite u64_id in Hr by lia.
        pose proof (Z.div_mod (p_capacity p - p_size p) 8 ltac:(lia)).
        pose proof (Z.mod_pos_bound (p_capacity p - p_size p) 8 ltac:(lia)). lia. }
      destruct (FIN p m) as (b' & E3 & I3' & C3 & O3); auto; try lia;
        try (first [apply (bi_chunk _ _ I)|apply (bi_begin _ _ I)|apply (bi_len _ _ I)]).
      exists true, b'. split; [exact E3|]. split; [auto|]. split; [discriminate|].
      split; [auto|]. split; [lia|]. lia.
    + assert (NM : n mod 8 = 0 /\ n <= p_capacity p -> False).
      { intros (M8 & C). apply mod8_eq in M8. unfold remaining_bytes in Hr.
        rewrite (bi_chunk _ _ I) in Hr. rewrite u64_id in Hr by lia.
        pose proof (Z.div_mod (p_capacity p - p_size p) 8 ltac:(lia)).
        pose proof (Z.mod_pos_bound (p_capacity p - p_size p) 8 ltac:(lia)). lia. }
      destruct b as [h0 p0 m0]; cbn [b_h b_pool b_mem] in *.
      exists false, (Buffer h0 p0 m0). split; [reflexivity|]. split; [discriminate|].
      split; [auto|]. split; [|split; [auto|lia]]. intros _ [C|C]; [elim (NM C)|lia].
Qed.
End Capacity.
