From Coq Require Import ZArith Bool Lia.
From Verif Require Import DebugReg.
Local Open Scope Z_scope.

(* the two halves of a register, bit by bit *)
Definition status_bit (i : Z) := 0 <= i < 32.
Definition flag_bit (i : Z) := 32 <= i < 64.
Definition register (r : Z) := 0 <= r < 2 ^ 64.

Lemma some_inj : forall A (a b : A), Some a = Some b -> b = a.
Proof. congruence. Qed.

Lemma low_mask : STATUS_BITMASK = Z.ones 32. Proof. reflexivity. Qed.

Lemma inv_mask_bit : forall i, 0 <= i ->
  Z.testbit STATUS_INV_BITMASK i = (32 <=? i) && (i <? 64).
Proof.
  intros i Hi. change STATUS_INV_BITMASK with (Z.shiftl (Z.ones 32) 32).
  rewrite Z.shiftl_spec by lia.
  destruct (Z.leb_spec 32 i).
  - rewrite Z.testbit_ones by lia. destruct (Z.ltb_spec i 64), (Z.leb_spec 0 (i - 32)),
      (Z.ltb_spec (i - 32) 32); cbn; try reflexivity; lia.
  - rewrite Z.testbit_neg_r by lia. reflexivity.
Qed.

Lemma reg_bit_high : forall r n i, 0 <= r < 2 ^ n -> 0 <= n <= i -> Z.testbit r i = false.
Proof.
  intros r n i Hr Hi. destruct (Z.eq_dec r 0) as [->|Hz]; [apply Z.bits_0|].
  apply Z.bits_above_log2; [lia|].
  apply Z.lt_le_trans with n; [|lia]. apply Z.log2_lt_pow2; lia.
Qed.

(* the status part written by store_arch_status *)
Lemma store_bits : forall reg s r, register reg -> - 2 ^ 31 < s < 2 ^ 31 ->
  store_arch_status reg s = Some r ->
  r = Z.lor (Z.land reg STATUS_INV_BITMASK) (s mod 2 ^ 32).
Proof.
  intros reg s r Hr Hs. unfold store_arch_status, u64, u32, not32.
  destruct (Z.leb_spec 0 s).
  - intros E. rewrite (some_inj _ _ _ E). f_equal. rewrite !Z.mod_small; [reflexivity|lia|lia].
  - destruct (Z.eqb_spec s (- 2 ^ 31)); [lia|]. intros E. rewrite (some_inj _ _ _ E). f_equal.
    rewrite (Z.mod_small (- s)) by lia. rewrite Z.mod_small by lia.
    apply Z.mod_unique with (-1); lia.
Qed.

Lemma store_defined : forall reg s, - 2 ^ 31 < s < 2 ^ 31 ->
  exists r, store_arch_status reg s = Some r.
Proof.
  intros reg s Hs. unfold store_arch_status. destruct (0 <=? s); [eexists; reflexivity|].
  destruct (Z.eqb_spec s (- 2 ^ 31)); [lia|]. eexists; reflexivity.
Qed.

Lemma store_flag : forall reg s r i, register reg -> - 2 ^ 31 < s < 2 ^ 31 ->
  store_arch_status reg s = Some r -> 32 <= i -> Z.testbit r i = Z.testbit reg i.
Proof.
  intros reg s r i Hr Hs E Hi. rewrite (store_bits _ _ _ Hr Hs E).
  rewrite Z.lor_spec, Z.land_spec, inv_mask_bit by lia.
  pose proof (Z.mod_pos_bound s (2 ^ 32)).
  rewrite (reg_bit_high (s mod 2 ^ 32) 32 i) by lia.
  destruct (Z.leb_spec 32 i); [|lia]. destruct (Z.ltb_spec i 64); cbn.
  - now rewrite andb_true_r, orb_false_r.
  - rewrite andb_false_r. symmetry. apply (reg_bit_high reg 64); [exact Hr|lia].
Qed.

Lemma store_low : forall reg s r, register reg -> - 2 ^ 31 < s < 2 ^ 31 ->
  store_arch_status reg s = Some r -> Z.land r STATUS_BITMASK = s mod 2 ^ 32.
Proof.
  intros reg s r Hr Hs E. rewrite (store_bits _ _ _ Hr Hs E), low_mask.
  rewrite Z.land_ones by lia. apply Z.bits_inj'. intros i Hi.
  destruct (Z_lt_le_dec i 32).
  - rewrite Z.mod_pow2_bits_low by lia. rewrite Z.lor_spec, Z.land_spec, inv_mask_bit by lia.
    destruct (Z.leb_spec 32 i); [lia|]. cbn. now rewrite andb_false_r.
  - rewrite !Z.mod_pow2_bits_high by lia. reflexivity.
Qed.

Lemma get_status : forall reg s, - 2 ^ 31 < s < 2 ^ 31 ->
  Z.land reg STATUS_BITMASK = s mod 2 ^ 32 -> get_stored_arch_status reg = Some s.
Proof.
  intros reg s Hs E. unfold get_stored_arch_status. rewrite E.
  destruct (Z_le_gt_dec 0 s).
  - rewrite Z.mod_small by lia. unfold STATUS_MAX_FLAG.
    destruct (Z.leb_spec 2147483648 s); [lia|].
    rewrite low_mask, Z.land_comm, Z.land_ones by lia. now rewrite Z.mod_small by lia.
  - assert (s mod 2 ^ 32 = s + 2 ^ 32) as -> by (symmetry; apply Z.mod_unique with (-1); lia).
    unfold STATUS_MAX_FLAG. destruct (Z.leb_spec 2147483648 (s + 2 ^ 32)); [|lia].
    unfold u64, u32, not64. rewrite (Z.mod_small (s + 2 ^ 32 - 1)) by lia.
    rewrite low_mask, Z.land_comm, Z.land_ones by lia.
    assert ((2 ^ 64 - 1 - (s + 2 ^ 32 - 1)) mod 2 ^ 32 = - s) as ->
      by (symmetry; apply Z.mod_unique with (2 ^ 32 - 1); lia).
    rewrite Z.mod_small by lia.
    destruct (Z.eqb_spec (- s) (2 ^ 31)); [lia|]. f_equal. lia.
Qed.

Lemma store_get : forall reg s, register reg -> - 2 ^ 31 < s < 2 ^ 31 ->
  exists r, store_arch_status reg s = Some r /\ get_stored_arch_status r = Some s /\
    register r /\ forall i, 32 <= i -> Z.testbit r i = Z.testbit reg i.
Proof.
  intros reg s Hr Hs. destruct (store_defined reg s Hs) as (r & E). exists r.
  split; [exact E|]. split; [|split].
  - apply get_status; [exact Hs|]. now apply store_low with reg.
  - rewrite (store_bits _ _ _ Hr Hs E).
    pose proof (Z.mod_pos_bound s (2 ^ 32)). unfold register in *.
    assert (0 <= Z.lor (Z.land reg STATUS_INV_BITMASK) (s mod 2 ^ 32)) as P.
    { apply Z.lor_nonneg. split; [apply Z.land_nonneg; lia|lia]. }
    set (x := Z.lor _ _) in *. enough (x mod 2 ^ 64 = x) as Q.
    { pose proof (Z.mod_pos_bound x (2 ^ 64)). lia. }
    unfold x. apply Z.bits_inj'. intros i Hi.
    destruct (Z_lt_le_dec i 64); [now rewrite Z.mod_pow2_bits_low by lia|].
    rewrite Z.mod_pow2_bits_high by lia. rewrite Z.lor_spec, Z.land_spec, inv_mask_bit by lia.
    rewrite (reg_bit_high (s mod 2 ^ 32) 32 i) by lia.
    destruct (Z.ltb_spec i 64); [lia|]. now rewrite !andb_false_r.
  - intros i Hi. now apply store_flag with s.
Qed.

(* highest set flag *)
Definition smeared (m r x : Z) := forall i, 0 <= i ->
  (Z.testbit x i = true <-> exists d, 0 <= d < m /\ Z.testbit r (i + d) = true).

Lemma smear_step : forall m r x, 0 < m -> smeared m r x -> smeared (2 * m) r (smear x m).
Proof.
  intros m r x Hm H i Hi. unfold smear. rewrite Z.lor_spec, Z.shiftr_spec, orb_true_iff by lia.
  rewrite (H i Hi), (H (i + m)) by lia. split.
  - intros [(d & Hd & E)|(d & Hd & E)]; [exists d|exists (m + d)]; (split; [lia|]); auto.
    now rewrite Z.add_assoc.
  - intros (d & Hd & E). destruct (Z_lt_le_dec d m); [left; exists d; split; [lia|auto]|].
    right. exists (d - m). split; [lia|]. replace (i + m + (d - m)) with (i + d) by lia. auto.
Qed.

Lemma highest : forall r, 0 < r < 2 ^ 64 -> get_highest_set_flag r = 2 ^ Z.log2 r.
Proof.
  intros r Hr. unfold get_highest_set_flag.
  assert (smeared 1 r r) as H.
  { intros i Hi. split.
    - intros E. exists 0. split; [lia|]. now rewrite Z.add_0_r.
    - intros (d & Hd & E). replace d with 0 in E by lia. now rewrite Z.add_0_r in E. }
  apply smear_step in H; [|lia]. apply smear_step in H; [|lia]. apply smear_step in H; [|lia].
  apply smear_step in H; [|lia]. apply smear_step in H; [|lia]. apply smear_step in H; [|lia].
  cbn [Z.mul Pos.mul] in H.
  match type of H with smeared _ _ ?t => set (x := t) in * end.
  change (Z.lxor x (Z.shiftr x 1) = 2 ^ Z.log2 r). clearbody x.
  pose proof (Z.log2_nonneg r) as L0.
  assert (Z.log2 r < 64) as L1 by (apply Z.log2_lt_pow2; lia).
  assert (forall i, 0 <= i -> Z.testbit x i = (i <=? Z.log2 r)) as B.
  { intros i Hi. destruct (Z.leb_spec i (Z.log2 r)).
    - apply H; [exact Hi|]. exists (Z.log2 r - i). split; [lia|].
      replace (i + (Z.log2 r - i)) with (Z.log2 r) by lia. apply Z.bit_log2; lia.
    - apply not_true_iff_false. intros E. apply H in E as (d & Hd & E); [|exact Hi].
      rewrite Z.bits_above_log2 in E by lia. discriminate. }
  apply Z.bits_inj'. intros i Hi. rewrite Z.lxor_spec, Z.shiftr_spec, !B by lia.
  rewrite Z.pow2_bits_eqb by lia.
  destruct (Z.leb_spec i (Z.log2 r)), (Z.leb_spec (i + 1) (Z.log2 r)), (Z.eqb_spec (Z.log2 r) i);
    cbn; try reflexivity; lia.
Qed.

Lemma next_spec : forall r, register r ->
  get_next_error_flag r =
    if r <? 2 ^ 32 then 2 ^ 32 else if r <? 2 ^ 63 then 2 ^ (Z.log2 r + 1) else 0.
Proof.
  intros r Hr. unfold get_next_error_flag, MIN_FLAG, MAX_FLAG, register in *.
  destruct (Z.eq_dec r 0) as [->|Hz]; [reflexivity|].
  rewrite highest by lia.
  destruct (Z.ltb_spec r (2 ^ 32)) as [H32|H32].
  - assert (Z.log2 r < 32) by (apply Z.log2_lt_pow2; lia).
    assert (2 ^ Z.log2 r < 2 ^ 32) by (apply Z.pow_lt_mono_r; lia).
    destruct (Z.ltb_spec (2 ^ Z.log2 r) 4294967296); [reflexivity|lia].
  - assert (32 <= Z.log2 r) by (apply Z.log2_le_pow2; lia).
    assert (2 ^ 32 <= 2 ^ Z.log2 r) by (apply Z.pow_le_mono_r; lia).
    destruct (Z.ltb_spec (2 ^ Z.log2 r) 4294967296); [lia|].
    destruct (Z.ltb_spec r (2 ^ 63)) as [H63|H63].
    + assert (Z.log2 r < 63) by (apply Z.log2_lt_pow2; lia).
      assert (2 ^ Z.log2 r < 2 ^ 63) by (apply Z.pow_lt_mono_r; lia).
      destruct (Z.ltb_spec (2 ^ Z.log2 r) 9223372036854775808); [|lia].
      unfold u64. rewrite Z.shiftl_mul_pow2 by lia. rewrite Z.mod_small by lia.
      rewrite Z.pow_add_r by lia. reflexivity.
    + assert (63 <= Z.log2 r) by (apply Z.log2_le_pow2; lia).
      assert (2 ^ 63 <= 2 ^ Z.log2 r) by (apply Z.pow_le_mono_r; lia).
      destruct (Z.ltb_spec (2 ^ Z.log2 r) 9223372036854775808); [lia|reflexivity].
Qed.

(* a register with a 32-bit status part and exactly the n lowest error flags *)
Lemma lor_disjoint_add : forall a b n, 0 <= n -> 0 <= a < 2 ^ n -> Z.lor a (b * 2 ^ n) = a + b * 2 ^ n.
Proof.
  intros a b n Hn Ha. apply Z.bits_inj'. intros i Hi.
  rewrite <- Z.shiftl_mul_pow2, Z.lor_spec, Z.shiftl_spec by lia.
  destruct (Z_lt_le_dec i n).
  - rewrite (Z.testbit_neg_r b) by lia. rewrite orb_false_r.
    rewrite <- (Z.mod_pow2_bits_low (a + _) n i) by lia.
    rewrite Z.shiftl_mul_pow2, Z_mod_plus_full by lia. now rewrite Z.mod_small by lia.
  - rewrite (reg_bit_high a n i) by lia. cbn.
    replace i with (i - n + n) at 2 by lia. rewrite <- Z.div_pow2_bits by lia.
    rewrite Z.shiftl_mul_pow2, Z.div_add by lia. rewrite Z.div_small by lia. reflexivity.
Qed.

Lemma raise_value : forall n s, 0 <= s < 2 ^ 32 -> (n <= 32)%nat ->
  raise_flags n s = s + (2 ^ Z.of_nat n - 1) * 2 ^ 32.
Proof.
  intros n s Hs. induction n as [|n IH]; intros Hn; [cbn; lia|].
  change (raise_flags (S n) s) with (raise_next_error_flag (raise_flags n s)).
  rewrite IH by lia. unfold raise_next_error_flag.
  set (r := s + (2 ^ Z.of_nat n - 1) * 2 ^ 32).
  assert (1 <= 2 ^ Z.of_nat n) as P1 by (pose proof (Z.pow_pos_nonneg 2 (Z.of_nat n)); lia).
  assert (2 ^ Z.of_nat n <= 2 ^ 31) as P2 by (apply Z.pow_le_mono_r; lia).
  assert (r = s + (2 ^ Z.of_nat n - 1) * 2 ^ 32) as Er by reflexivity. clearbody r.
  assert (register r) as R by (unfold register; lia).
  rewrite next_spec by exact R.
  assert (2 ^ Z.of_nat (S n) = 2 * 2 ^ Z.of_nat n) as PS
    by (rewrite Nat2Z.inj_succ, Z.pow_succ_r; lia).
  destruct (Z.ltb_spec r (2 ^ 32)) as [H|H].
  - assert (2 ^ Z.of_nat n = 1) as P by lia.
    assert (r = s) as -> by lia.
    replace (2 ^ 32) with (1 * 2 ^ 32) at 1 by lia. rewrite lor_disjoint_add by lia. lia.
  - assert (2 <= 2 ^ Z.of_nat n) as P3 by lia.
    destruct n as [|m]; [cbn in P3; lia|].
    destruct (Z.ltb_spec r (2 ^ 63)); [|lia].
    assert (2 ^ Z.of_nat (S m) = 2 * 2 ^ Z.of_nat m) as PM
      by (rewrite Nat2Z.inj_succ, Z.pow_succ_r; lia).
    assert (Z.log2 r = 32 + Z.of_nat m) as L.
    { apply Z.log2_unique; [lia|]. rewrite !Z.pow_succ_r, !Z.pow_add_r by lia. split; nia. }
    rewrite L. replace (32 + Z.of_nat m + 1) with (32 + Z.of_nat (S m)) by lia.
    replace (2 ^ (32 + Z.of_nat (S m))) with (1 * 2 ^ (32 + Z.of_nat (S m))) by lia.
    rewrite lor_disjoint_add; [|lia|rewrite Z.pow_add_r by lia; lia].
    rewrite Z.pow_add_r by lia. lia.
Qed.

Lemma raise_bits : forall n s i, 0 <= s < 2 ^ 32 -> (n <= 32)%nat -> 0 <= i ->
  Z.testbit (raise_flags n s) i =
    if i <? 32 then Z.testbit s i else i <? 32 + Z.of_nat n.
Proof.
  intros n s i Hs Hn Hi. rewrite raise_value by auto.
  rewrite <- lor_disjoint_add by lia. rewrite <- Z.shiftl_mul_pow2, Z.lor_spec, Z.shiftl_spec by lia.
  replace (2 ^ Z.of_nat n - 1) with (Z.ones (Z.of_nat n)) by (rewrite Z.ones_equiv; lia).
  destruct (Z.ltb_spec i 32).
  - rewrite (Z.testbit_neg_r (Z.ones _)) by lia. apply orb_false_r.
  - rewrite (reg_bit_high s 32 i) by lia. cbn [orb]. rewrite Z.testbit_ones by lia.
    destruct (Z.leb_spec 0 (i - 32)), (Z.ltb_spec (i - 32) (Z.of_nat n)), (Z.ltb_spec i (32 + Z.of_nat n));
      cbn [andb]; try reflexivity; lia.
Qed.

(* a full register stays as it is *)
Lemma raise_full : forall r, register r -> 2 ^ 63 <= r -> raise_next_error_flag r = r.
Proof.
  intros r Hr H. unfold raise_next_error_flag. rewrite next_spec by exact Hr.
  destruct (Z.ltb_spec r (2 ^ 32)); [lia|]. destruct (Z.ltb_spec r (2 ^ 63)); [lia|].
  apply Z.lor_0_r.
Qed.

(* raising only adds a flag, for every register *)
Lemma raise_keeps : forall r i, register r -> 0 <= i ->
  Z.testbit r i = true -> Z.testbit (raise_next_error_flag r) i = true.
Proof.
  intros r i Hr Hi E. unfold raise_next_error_flag. rewrite Z.lor_spec, E. reflexivity.
Qed.

Lemma raise_low : forall r i, register r -> 0 <= i < 32 ->
  Z.testbit (raise_next_error_flag r) i = Z.testbit r i.
Proof.
  intros r i Hr Hi. unfold raise_next_error_flag. rewrite Z.lor_spec, next_spec by exact Hr.
  destruct (Z.ltb_spec r (2 ^ 32)).
  - rewrite Z.pow2_bits_eqb by lia. destruct (Z.eqb_spec 32 i); [lia|]. apply orb_false_r.
  - destruct (Z.ltb_spec r (2 ^ 63)).
    + assert (32 <= Z.log2 r) by (apply Z.log2_le_pow2; lia).
      rewrite Z.pow2_bits_eqb by lia. destruct (Z.eqb_spec (Z.log2 r + 1) i); [lia|]. apply orb_false_r.
    + rewrite Z.bits_0. apply orb_false_r.
Qed.
