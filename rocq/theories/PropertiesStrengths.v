(* Theorems for C37: setting, reading and using multipole strengths. *)
From Coq Require Import ZArith Reals Lra Lia List Bool.
From Coquelicot Require Import Coquelicot.
From Verif Require Import Num Particle Elements ParticleSet DispatchProofs ParticleSetProofs MapsR OpticsSpec MultipoleProofs
  Strengths StrengthsSpec StrengthsProofs.
Import List ListNotations.
Local Open Scope R_scope.

Definition sample_mpole : mpole R := mkMpole 2 0 0 0 (Some [1; 2; 3; 4; 5; 6]).

Lemma sample_complete : complete sample_mpole.
Proof. split; [cbn; lia|]. eexists. split; reflexivity. Qed.

(* ---- one strength at a time ---- *)
(* For every order and index the value set is the value read, no other strength changes and
   neither do order, length and curvature. *)
Theorem C37_knl_value : forall m k v, complete m -> (0 <= k <= m_order m)%Z ->
  exists m', mp_set_knl_value ROps k v m = Some (m', 0%Z) /\ complete m' /\ same_but_bal m m' /\
    mp_knl ROps m' k = Some v /\
    (forall j, j <> k -> mp_knl ROps m' j = mp_knl ROps m j) /\
    (forall j, mp_ksl ROps m' j = mp_ksl ROps m j).
Proof.
  intros m k v [Ho (b & Eb & Lb)] Hk. unfold mp_set_knl_value. rewrite Eb.
  rewrite Z.mod_small by lia. unfold bal_length. rewrite (proj2 (Z.leb_le 0 (m_order m))) by lia.
  rewrite (proj2 (Z.ltb_lt _ _)) by lia.
  destruct (aput_spec _ b (2 * k) (ndiv ROps v (math_factorial ROps k))) as (b' & E & L & G); [lia|].
  rewrite E. cbn [obind]. exists (with_bal b' m). split; [reflexivity|].
  split; [split; [exact Ho|exists b'; split; [reflexivity|rewrite L; exact Lb]]|].
  split; [repeat split|]. unfold mp_knl, mp_ksl, mp_bal. cbn [m_bal with_bal]. rewrite Eb.
  split; [|split].
  - rewrite G, Z.eqb_refl. cbn [obind]. f_equal. rops. field. apply factorial_neq0. lia.
  - intros j Hj. rewrite G. replace (2 * j =? 2 * k)%Z with false by (symmetry; apply Z.eqb_neq; lia). reflexivity.
  - intros j. rewrite G. replace (2 * j + 1 =? 2 * k)%Z with false by (symmetry; apply Z.eqb_neq; lia). reflexivity.
Qed.
Print Assumptions C37_knl_value.

Theorem C37_ksl_value : forall m k v, complete m -> (0 <= k <= m_order m)%Z ->
  exists m', mp_set_ksl_value ROps k v m = Some (m', 0%Z) /\ complete m' /\ same_but_bal m m' /\
    mp_ksl ROps m' k = Some v /\
    (forall j, j <> k -> mp_ksl ROps m' j = mp_ksl ROps m j) /\
    (forall j, mp_knl ROps m' j = mp_knl ROps m j).
Proof.
  intros m k v [Ho (b & Eb & Lb)] Hk. unfold mp_set_ksl_value. rewrite Eb.
  rewrite Z.mod_small by lia. unfold bal_length. rewrite (proj2 (Z.leb_le 0 (m_order m))) by lia.
  rewrite (proj2 (Z.ltb_lt _ _)) by lia.
  destruct (aput_spec _ b (2 * k + 1) (ndiv ROps v (math_factorial ROps k))) as (b' & E & L & G); [lia|].
  rewrite E. cbn [obind]. exists (with_bal b' m). split; [reflexivity|].
  split; [split; [exact Ho|exists b'; split; [reflexivity|rewrite L; exact Lb]]|].
  split; [repeat split|]. unfold mp_knl, mp_ksl, mp_bal. cbn [m_bal with_bal]. rewrite Eb.
  split; [|split].
  - rewrite G, Z.eqb_refl. cbn [obind]. f_equal. rops. field. apply factorial_neq0. lia.
  - intros j Hj. rewrite G. replace (2 * j + 1 =? 2 * k + 1)%Z with false by (symmetry; apply Z.eqb_neq; lia). reflexivity.
  - intros j. rewrite G. replace (2 * j =? 2 * k + 1)%Z with false by (symmetry; apply Z.eqb_neq; lia). reflexivity.
Qed.
Print Assumptions C37_ksl_value.

(* An index above the order is refused and nothing changes. *)
Theorem C37_index_refused : forall m k v, complete m -> (m_order m < k < 2 ^ 63)%Z ->
  mp_set_knl_value ROps k v m = Some (m, (-1)%Z) /\ mp_set_ksl_value ROps k v m = Some (m, (-1)%Z).
Proof.
  intros m k v [Ho (b & Eb & Lb)] Hk. unfold mp_set_knl_value, mp_set_ksl_value. rewrite Eb.
  rewrite !Z.mod_small by lia. unfold bal_length. rewrite (proj2 (Z.leb_le 0 (m_order m))) by lia.
  rewrite (proj2 (Z.ltb_ge _ _)) by lia. rewrite (proj2 (Z.ltb_ge _ _)) by lia. split; reflexivity.
Qed.
Print Assumptions C37_index_refused.

(* The coefficients behind the strengths: an index below twice the number of strengths sets this
   coefficient and no other; any other index is refused, and so is every index without an array. *)
Theorem C37_bal_value : forall m i v, complete m ->
  ((0 <= i < 2 * (m_order m + 1))%Z -> exists m', mp_set_bal_value i v m = Some (m', 0%Z) /\ complete m' /\ same_but_bal m m' /\
     mp_bal m' i = Some v /\ forall j, j <> i -> mp_bal m' j = mp_bal m j) /\
  ((2 * (m_order m + 1) <= i)%Z -> mp_set_bal_value i v m = Some (m, (-1)%Z)).
Proof.
  intros m i v [Ho (b & Eb & Lb)]. unfold mp_set_bal_value. rewrite Eb.
  unfold bal_length. rewrite (proj2 (Z.leb_le 0 (m_order m))) by lia. split; intros Hi.
  - rewrite (proj2 (Z.ltb_lt _ _)) by lia.
    destruct (aput_spec _ b i v) as (b' & E & L & G); [lia|].
    rewrite E. cbn [obind]. exists (with_bal b' m). split; [reflexivity|].
    split; [split; [exact Ho|exists b'; split; [reflexivity|rewrite L; exact Lb]]|].
    split; [repeat split|]. unfold mp_bal. cbn [m_bal with_bal]. rewrite Eb. split.
    + now rewrite G, Z.eqb_refl.
    + intros j Hj. rewrite G. now rewrite (proj2 (Z.eqb_neq j i) Hj).
  - rewrite (proj2 (Z.ltb_ge _ _)) by lia. reflexivity.
Qed.
Print Assumptions C37_bal_value.

(* ---- whole arrays ---- *)
Lemma half : forall o, (0 <= o)%Z -> ((2 * o + 2) / 2 = o + 1)%Z.
Proof. intros. replace (2 * o + 2)%Z with ((o + 1) * 2)%Z by lia. apply Z.div_mul. lia. Qed.

Lemma aget_nth0 : forall (l : list R) j, (0 <= j < Z.of_nat (length l))%Z -> aget l j = Some (nth (Z.to_nat j) l 0).
Proof. intros l j H. rewrite aget_nth by lia. apply nth_error_nth'. lia. Qed.

(* One value for all strengths of a kind; the other kind is untouched. *)
Theorem C37_all_values : forall m v, complete m ->
  (exists m', mp_set_all_knl_values ROps v m = Some (m', 0%Z) /\ complete m' /\ same_but_bal m m' /\
     (forall k, (0 <= k <= m_order m)%Z -> mp_knl ROps m' k = Some v) /\ (forall k, mp_ksl ROps m' k = mp_ksl ROps m k)) /\
  (exists m', mp_set_all_ksl_values ROps v m = Some (m', 0%Z) /\ complete m' /\ same_but_bal m m' /\
     (forall k, (0 <= k <= m_order m)%Z -> mp_ksl ROps m' k = Some v) /\ (forall k, mp_knl ROps m' k = mp_knl ROps m k)).
Proof.
  intros m v [Ho (b & Eb & Lb)]. unfold mp_set_all_knl_values, mp_set_all_ksl_values. rewrite Eb.
  unfold bal_length. rewrite (proj2 (Z.leb_le 0 (m_order m))) by lia. rewrite half by lia. split.
  - destruct (put_strengths_spec R ROps (Z.to_nat (m_order m + 1)) 0 0 (fun _ => Some v) b (fun _ => v))
      as (b1 & E1 & L1 & A1 & B1); [lia|lia|reflexivity|].
    rewrite E1. cbn [obind]. exists (with_bal b1 m). split; [reflexivity|].
    split; [split; [exact Ho|exists b1; split; [reflexivity|rewrite L1; exact Lb]]|]. split; [repeat split|].
    unfold mp_knl, mp_ksl, mp_bal. cbn [m_bal with_bal]. rewrite Eb. split.
    + intros k Hk. specialize (A1 k). replace (0 + 2 * k)%Z with (2 * k)%Z in A1 by lia. rewrite A1 by lia.
      cbn [obind]. replace (0 + k)%Z with k by lia. rops. f_equal. field. apply factorial_neq0. lia.
    + intros k. rewrite B1 by (intros; lia). reflexivity.
  - destruct (put_strengths_spec R ROps (Z.to_nat (m_order m + 1)) 1 0 (fun _ => Some v) b (fun _ => v))
      as (b1 & E1 & L1 & A1 & B1); [lia|lia|reflexivity|].
    rewrite E1. cbn [obind]. exists (with_bal b1 m). split; [reflexivity|].
    split; [split; [exact Ho|exists b1; split; [reflexivity|rewrite L1; exact Lb]]|]. split; [repeat split|].
    unfold mp_knl, mp_ksl, mp_bal. cbn [m_bal with_bal]. rewrite Eb. split.
    + intros k Hk. specialize (A1 k). replace (1 + 2 * k)%Z with (2 * k + 1)%Z in A1 by lia. rewrite A1 by lia.
      cbn [obind]. replace (0 + k)%Z with k by lia. rops. f_equal. field. apply factorial_neq0. lia.
    + intros k. rewrite B1 by (intros; lia). reflexivity.
Qed.
Print Assumptions C37_all_values.

(* The tracked multipole uses the strengths divided by the factorials: setting both arrays on a
   multipole of order at most 10 makes the kick that of the field with these strengths. *)
Theorem C37_arrays : forall m kn ks, complete m ->
  (m_order m < Z.of_nat (length kn))%Z -> (m_order m < Z.of_nat (length ks))%Z ->
  exists m1 m2, mp_set_knl ROps kn m = Some (m1, 0%Z) /\ mp_set_ksl ROps ks m1 = Some (m2, 0%Z) /\
    complete m2 /\ same_but_bal m m2 /\
    (forall k, (0 <= k <= m_order m)%Z ->
       mp_knl ROps m2 k = Some (nth (Z.to_nat k) kn 0) /\ mp_ksl ROps m2 k = Some (nth (Z.to_nat k) ks 0) /\
       mp_bal m2 (2 * k) = Some (nth (Z.to_nat k) kn 0 / math_factorial ROps k) /\
       mp_bal m2 (2 * k + 1) = Some (nth (Z.to_nat k) ks 0 / math_factorial ROps k)).
Proof.
  intros m kn ks [Ho (b & Eb & Lb)] Hkn Hks. unfold mp_set_knl. rewrite Eb.
  unfold bal_length at 1. rewrite (proj2 (Z.leb_le 0 (m_order m))) by lia. rewrite half by lia.
  destruct (put_strengths_spec R ROps (Z.to_nat (m_order m + 1)) 0 0 (aget kn) b (fun j => nth (Z.to_nat j) kn 0))
    as (b1 & E1 & L1 & A1 & B1); [lia|lia| |].
  { intros j Hj. apply aget_nth0. lia. }
  rewrite E1. cbn [obind]. exists (with_bal b1 m).
  unfold mp_set_ksl. cbn [m_bal with_bal]. unfold bal_length. cbn [m_order with_bal].
  rewrite (proj2 (Z.leb_le 0 (m_order m))) by lia. rewrite half by lia.
  destruct (put_strengths_spec R ROps (Z.to_nat (m_order m + 1)) 1 0 (aget ks) b1 (fun j => nth (Z.to_nat j) ks 0))
    as (b2 & E2 & L2 & A2 & B2); [lia|lia| |].
  { intros j Hj. apply aget_nth0. lia. }
  rewrite E2. cbn [obind]. exists (with_bal b2 (with_bal b1 m)).
  split; [reflexivity|]. split; [reflexivity|].
  split; [split; [exact Ho|exists b2; split; [reflexivity|rewrite L2, L1; exact Lb]]|].
  split; [repeat split|].
  intros k Hk. unfold mp_knl, mp_ksl, mp_bal. cbn [m_bal with_bal].
  assert (G1 : aget b2 (2 * k) = Some (nth (Z.to_nat k) kn 0 / math_factorial ROps k)).
  { rewrite B2 by (intros; lia). specialize (A1 k). cbn [Z.add] in A1. replace (0 + 2 * k)%Z with (2 * k)%Z in A1 by lia.
    rewrite A1 by lia. replace (0 + k)%Z with k by lia. reflexivity. }
  assert (G2 : aget b2 (2 * k + 1) = Some (nth (Z.to_nat k) ks 0 / math_factorial ROps k)).
  { specialize (A2 k). replace (1 + 2 * k)%Z with (2 * k + 1)%Z in A2 by lia.
    rewrite A2 by lia. replace (0 + k)%Z with k by lia. reflexivity. }
  rewrite G1, G2. cbn [obind]. rops. split; [|split; [|split]]; try reflexivity; f_equal; field; apply factorial_neq0; lia.
Qed.
Print Assumptions C37_arrays.

Example C37_arrays_case : complete sample_mpole /\ (m_order sample_mpole < Z.of_nat (length [1; 2; 3]))%Z.
Proof. split; [apply sample_complete|reflexivity]. Qed.

(* strengths and field: the kick of the tracked element is that of the field with strengths kn,
   ks, for straight multipoles up to order 10 *)
Theorem C37_field : forall m m1 m2 kn ks p, complete m -> (m_order m <= 10)%Z ->
  m_hxl m = 0 -> m_hyl m = 0 ->
  (m_order m < Z.of_nat (length kn))%Z -> (m_order m < Z.of_nat (length ks))%Z ->
  mp_set_knl ROps kn m = Some (m1, 0%Z) -> mp_set_ksl ROps ks m1 = Some (m2, 0%Z) ->
  let F := field kn ks (Z.to_nat (m_order m)) (p_x p) (p_y p) in
  forall c outs, dispatch ROps c (mp_elem m2) p outs =
    Some (set_py (p_py p + p_chi p * Im F) (set_px (p_px p - p_chi p * Re F) p), outs, 0%Z).
Proof.
  intros m m1 m2 kn ks p Hc H10 Hx Hy Hkn Hks E1 E2 F c outs.
  destruct (C37_arrays m kn ks Hc Hkn Hks) as (m1' & m2' & E1' & E2' & [Ho2 (b & Eb & Lb)] & (S1 & S2 & S3 & S4) & K).
  assert (m1' = m1) by congruence. subst m1'. assert (m2' = m2) by congruence. subst m2'. clear E1 E2 E1' E2'.
  unfold mp_elem. rewrite Eb, S1, S3, S4, Hx, Hy. cbn [dispatch].
  rewrite (multipole_map). unfold curvature_px, curvature_py.
  assert (E : multipole_sum b (Z.to_nat (m_order m)) (p_x p) (p_y p) = F).
  { unfold F, multipole_sum, field. apply sum_n_ext_loc. intros n Hn.
    destruct (K (Z.of_nat n)) as (_ & _ & K1 & K2); [lia|]. unfold mp_bal in K1, K2. rewrite Eb in K1, K2.
    rewrite Nat2Z.id in K1, K2.
    rewrite factorial_true in K1, K2 by lia. rewrite Nat2Z.id in K1, K2.
    rewrite aget_nth0 in K1, K2 by lia.
    replace (Z.to_nat (2 * Z.of_nat n)) with (2 * n)%nat in K1 by lia.
    replace (Z.to_nat (2 * Z.of_nat n + 1)) with (2 * n + 1)%nat in K2 by lia.
    assert (K1' : nth (2 * n) b 0 = nth n kn 0 / INR (fact n)) by congruence.
    assert (K2' : nth (2 * n + 1) b 0 = nth n ks 0 / INR (fact n)) by congruence.
    rewrite K1', K2'. reflexivity. }
  rewrite E. f_equal. f_equal. f_equal.
  destruct (Rlt_dec 0 (m_length m2)); destruct p; pupdate; f_equal; try ring; field; lra.
Qed.
Print Assumptions C37_field.

Example C37_field_case : complete sample_mpole /\ (m_order sample_mpole <= 10)%Z /\ m_hxl sample_mpole = 0 /\ m_hyl sample_mpole = 0.
Proof. split; [apply sample_complete|]. repeat split; cbn; lia. Qed.

(* the stored coefficient is strength / k! up to k = 20, except 11 *)
Theorem C37_coefficient : forall m k v, complete m -> (0 <= k <= m_order m)%Z -> (k <= 20)%Z -> k <> 11%Z ->
  exists m', mp_set_knl_value ROps k v m = Some (m', 0%Z) /\ mp_bal m' (2 * k) = Some (v / INR (fact (Z.to_nat k))).
Proof.
  intros m k v Hc Hk H20 H11. destruct (C37_knl_value m k v Hc Hk) as (m' & E & _ & _ & K & _).
  exists m'. split; auto. unfold mp_knl, mp_bal in *. rewrite factorial_true in K by lia.
  destruct (m_bal m') as [b|]; [|discriminate]. destruct (aget b (2 * k)) as [w|]; [|discriminate].
  cbn [obind] in K. assert (K' : w * INR (fact (Z.to_nat k)) = v). { rops. congruence. }
  rewrite <- K'. f_equal. field. apply not_0_INR. apply fact_neq_0.
Qed.
Print Assumptions C37_coefficient.

Theorem C37_copy : forall src dst, complete src -> complete dst -> m_order dst = m_order src ->
  mp_copy dst src = Some (src, 0%Z).
Proof.
  intros src dst [Ho (b & Eb & Lb)] [Ho' (b' & Eb' & Lb')] E. unfold mp_copy. rewrite E, Z.eqb_refl, Eb.
  unfold mp_set_bal. cbn [m_bal]. rewrite Eb'. unfold bal_length. cbn [m_order].
  rewrite (proj2 (Z.leb_le 0 (m_order src))) by lia.
  rewrite acopy_all by lia. cbn [obind with_bal m_order m_length m_hxl m_hyl ok].
  replace (length b') with (length b) by lia. rewrite firstn_all. unfold ok, with_bal. cbn [m_order m_length m_hxl m_hyl].
  destruct src; cbn [Strengths.m_bal] in Eb; subst; reflexivity.
Qed.
Print Assumptions C37_copy.

Lemma factorial_11 : math_factorial ROps 11 = INR (fact 10).
Proof.
  assert (H : math_factorial ROps 11 = math_factorial ROps 10) by reflexivity.
  rewrite H. rewrite factorial_true by lia. change (Z.to_nat 10) with 10%nat. reflexivity.
Qed.

Lemma fact_11 : INR (fact 11) = 11 * INR (fact 10).
Proof. rewrite (fact_step 10). change (IZR (Z.of_nat 11)) with 11. reflexivity. Qed.

Lemma eleven_differs : forall f v, f <> 0 -> v <> 0 -> v / f <> v / (11 * f).
Proof.
  intros f v Hf Hv H. apply Hv.
  assert (E : v / f * (11 * f) = v / (11 * f) * (11 * f)) by now rewrite H.
  replace (v / f * (11 * f)) with (11 * v) in E by (field; assumption).
  replace (v / (11 * f) * (11 * f)) with v in E by (field; assumption). lra.
Qed.

(* ---- what the code gets wrong ---- *)
(* the strength of index 11 is divided by 10! *)
Theorem C37_eleven_refuted : forall m v, complete m -> (11 <= m_order m)%Z ->
  exists m', mp_set_knl_value ROps 11 v m = Some (m', 0%Z) /\ mp_bal m' 22 = Some (v / INR (fact 10)) /\
    (v <> 0 -> v / INR (fact 10) <> v / INR (fact 11)).
Proof.
  intros m v Hc Hk. destruct (C37_knl_value m 11 v Hc) as (m' & E & _ & _ & K & _); [lia|].
  exists m'. split; auto. unfold mp_knl, mp_bal in *. rewrite factorial_11 in K.
  assert (N10 : INR (fact 10) <> 0) by (apply not_0_INR, fact_neq_0).
  split.
  - change (2 * 11)%Z with 22%Z in K.
    revert K N10. generalize (INR (fact 10)). intros f K Hf.
    destruct (m_bal m') as [b|]; [|discriminate]. destruct (aget b 22) as [w|]; [|discriminate].
    cbn [obind] in K. assert (K' : w * f = v). { rops. congruence. }
    rewrite <- K'. f_equal. field. assumption.
  - intros Hv. rewrite fact_11.
    exact (eleven_differs _ _ N10 Hv).
Qed.
Print Assumptions C37_eleven_refuted.

Lemma factorial_21 : math_factorial ROps 21 = INR (fact 20) + 1.
Proof.
  change 20%nat with (Z.to_nat 20). rewrite <- (factorial_true 20) by lia. unfold math_factorial.
  change (aget factorial_table 21) with (@None Z). change (aget factorial_table 20) with (Some 2432902008176640000%Z).
  change (21 / 20)%Z with 1%Z. change (21 mod 20)%Z with 1%Z. cbv iota beta zeta.
  change (aget factorial_table 1) with (Some 1%Z). change (1 =? 0)%Z with false. cbv iota. rops. ring.
Qed.

Lemma fact_21 : INR (fact 21) = 21 * INR (fact 20).
Proof. rewrite (fact_step 20). change (IZR (Z.of_nat 21)) with 21. reflexivity. Qed.

Lemma twenty_one_differs : forall f v, 1 <= f -> v <> 0 -> v / (f + 1) <> v / (21 * f).
Proof.
  intros f v Hf Hv H.
  assert (E : v / (f + 1) * ((f + 1) * (21 * f)) = v / (21 * f) * ((f + 1) * (21 * f))) by now rewrite H.
  replace (v / (f + 1) * ((f + 1) * (21 * f))) with (v * (21 * f)) in E by (field; lra).
  replace (v / (21 * f) * ((f + 1) * (21 * f))) with (v * (f + 1)) in E by (field; lra).
  apply Rmult_eq_reg_l in E; [lra|assumption].
Qed.

(* the strength of index 21 is divided by 20! + 1 *)
Theorem C37_above_twenty_refuted : forall m v, complete m -> (21 <= m_order m)%Z ->
  exists m', mp_set_knl_value ROps 21 v m = Some (m', 0%Z) /\ mp_bal m' 42 = Some (v / (INR (fact 20) + 1)) /\
    (v <> 0 -> v / (INR (fact 20) + 1) <> v / INR (fact 21)).
Proof.
  intros m v Hc Hk. destruct (C37_knl_value m 21 v Hc) as (m' & E & _ & _ & K & _); [lia|].
  exists m'. split; auto. unfold mp_knl, mp_bal in *. rewrite factorial_21 in K. rewrite fact_21.
  assert (N20 : 1 <= INR (fact 20)) by (change 1 with (INR 1); apply le_INR, lt_O_fact).
  change (2 * 21)%Z with 42%Z in K. revert K N20. generalize (INR (fact 20)). intros f K Hf. split.
  - destruct (m_bal m') as [b|]; [|discriminate]. destruct (aget b 42) as [w|]; [|discriminate].
    cbn [obind] in K. assert (K' : w * (f + 1) = v). { rops. congruence. }
    rewrite <- K'. f_equal. field. lra.
  - intros Hv. exact (twenty_one_differs f v Hf Hv).
Qed.
Print Assumptions C37_above_twenty_refuted.

(* setting all coefficients reports success and sets nothing *)
Theorem C37_all_bal_refuted : forall m v, complete m -> mp_set_all_bal_values v m = Some (m, 0%Z).
Proof. intros m v [_ (b & Eb & _)]. unfold mp_set_all_bal_values. rewrite Eb. reflexivity. Qed.
Print Assumptions C37_all_bal_refuted.

(* an index of 2^63 overwrites the dipole strength and reports success *)
Theorem C37_wrap_refuted : exists m', mp_set_knl_value ROps (2 ^ 63) 1 sample_mpole = Some (m', 0%Z) /\
  mp_bal sample_mpole 0 = Some 1 /\ mp_bal m' 0 <> Some 1.
Proof.
  unfold mp_set_knl_value. change ((2 * 2 ^ 63) mod 2 ^ 64)%Z with 0%Z. cbn [m_bal sample_mpole].
  change (bal_length R sample_mpole) with 6%Z. change (0 <? 6)%Z with true. cbv iota.
  destruct (aput_spec _ [1; 2; 3; 4; 5; 6] 0 (ndiv ROps 1 (math_factorial ROps (2 ^ 63)))) as (b' & E & L & G); [cbn; lia|].
  rewrite E. cbn [obind]. eexists. split; [reflexivity|]. split; [reflexivity|].
  unfold mp_bal. cbn [m_bal with_bal]. rewrite G. rewrite Z.eqb_refl. intros H.
  assert (K : ndiv ROps 1 (math_factorial ROps (2 ^ 63)) = 1) by congruence. revert K.
  unfold math_factorial. rewrite (aget_none _ factorial_table (2 ^ 63)) by (cbn [length factorial_table]; lia).
  change (2 ^ 63 / 20)%Z with 461168601842738790%Z. change (2 ^ 63 mod 20)%Z with 8%Z. cbv zeta. change (8 =? 0)%Z with false.
  change (aget factorial_table 8) with (Some 40320%Z). cbv iota. rops. intros K.
  assert (P : 1 < 461168601842738790 * 2432902008176640000 + 40320).
  { rewrite <- mult_IZR, <- plus_IZR. apply IZR_lt. reflexivity. }
  assert (Q : 1 = 461168601842738790 * 2432902008176640000 + 40320).
  { rewrite <- (Rmult_1_l (461168601842738790 * 2432902008176640000 + 40320)). rewrite <- K at 2. field. }
  lra.
Qed.
Print Assumptions C37_wrap_refuted.

(* ---- RF multipoles ---- *)
Definition sample_rfm : rfm R := mkRfm 1 0 0 0 1000 1032 [1; 2; 3; 4] [5; 6; 7; 8].
Lemma sample_rf_complete : rf_complete sample_rfm.
Proof. split; [cbn; lia|]. split; reflexivity. Qed.

(* the array setter of the normal strengths, and the phases of the normal components *)
Theorem C37_rf_knl : forall m kn, rf_complete m -> (rf_order m < Z.of_nat (length kn))%Z ->
  exists m', rf_set_knl ROps kn m = Some (m', 0%Z) /\ rf_complete m' /\ rf_phase m' = rf_phase m /\
    (forall k, (0 <= k <= rf_order m)%Z -> rf_knl ROps m' k = Some (nth (Z.to_nat k) kn 0)) /\
    (forall k, rf_ksl ROps m' k = rf_ksl ROps m k).
Proof.
  intros m kn (Ho & Lb & Lp) Hkn. unfold rf_set_knl.
  destruct (put_strengths_spec R ROps (Z.to_nat (rf_order m + 1)) 0 0 (aget kn) (rf_bal m) (fun j => nth (Z.to_nat j) kn 0))
    as (b1 & E1 & L1 & A1 & B1); [lia|lia| |].
  { intros j Hj. apply aget_nth0. lia. }
  rewrite E1. cbn [obind]. exists (rf_with_bal b1 m). split; [reflexivity|].
  split; [split; [exact Ho|split; [cbn [rf_bal rf_with_bal]; rewrite L1; exact Lb|exact Lp]]|].
  split; [reflexivity|]. unfold rf_knl, rf_ksl. cbn [rf_bal rf_with_bal]. split.
  - intros k Hk. specialize (A1 k). replace (0 + 2 * k)%Z with (2 * k)%Z in A1 by lia. rewrite A1 by lia.
    cbn [obind]. replace (0 + k)%Z with k by lia. rops. f_equal. field. apply factorial_neq0. lia.
  - intros k. rewrite B1 by (intros; lia). reflexivity.
Qed.
Print Assumptions C37_rf_knl.

(* one value for all normal strengths; one phase at a time; one coefficient at a time *)
Theorem C37_rf_values : forall m v, rf_complete m ->
  (exists m', rf_set_all_knl_values ROps v m = Some (m', 0%Z) /\ rf_complete m' /\ rf_phase m' = rf_phase m /\
     (forall k, (0 <= k <= rf_order m)%Z -> rf_knl ROps m' k = Some v) /\ (forall k, rf_ksl ROps m' k = rf_ksl ROps m k)) /\
  (forall i, (0 <= i < 2 * (rf_order m + 1))%Z ->
     exists m', rf_set_phase_value i v m = Some (m', 0%Z) /\ rf_complete m' /\ rf_bal m' = rf_bal m /\
       forall j, aget (rf_phase m') j = if (j =? i)%Z then Some v else aget (rf_phase m) j) /\
  (forall i, (0 <= i < 2 * (rf_order m + 1))%Z ->
     exists m', rf_set_bal_value i v m = Some (m', 0%Z) /\ rf_complete m' /\ rf_phase m' = rf_phase m /\
       forall j, aget (rf_bal m') j = if (j =? i)%Z then Some v else aget (rf_bal m) j).
Proof.
  intros m v (Ho & Lb & Lp). split; [|split].
  - unfold rf_set_all_knl_values.
    destruct (put_strengths_spec R ROps (Z.to_nat (rf_order m + 1)) 0 0 (fun _ => Some v) (rf_bal m) (fun _ => v))
      as (b1 & E1 & L1 & A1 & B1); [lia|lia|reflexivity|].
    rewrite E1. cbn [obind]. exists (rf_with_bal b1 m). split; [reflexivity|].
    split; [split; [exact Ho|split; [cbn [rf_bal rf_with_bal]; rewrite L1; exact Lb|exact Lp]]|].
    split; [reflexivity|]. unfold rf_knl, rf_ksl. cbn [rf_bal rf_with_bal]. split.
    + intros k Hk. specialize (A1 k). replace (0 + 2 * k)%Z with (2 * k)%Z in A1 by lia. rewrite A1 by lia.
      cbn [obind]. replace (0 + k)%Z with k by lia. rops. f_equal. field. apply factorial_neq0. lia.
    + intros k. rewrite B1 by (intros; lia). reflexivity.
  - intros i Hi. unfold rf_set_phase_value. destruct (aput_spec _ (rf_phase m) i v) as (b' & E & L & G); [lia|].
    rewrite E. cbn [obind]. exists (rf_with_phase b' m). split; [reflexivity|].
    split; [split; [exact Ho|split; [exact Lb|cbn [rf_phase rf_with_phase]; rewrite L; exact Lp]]|]. split; [reflexivity|]. exact G.
  - intros i Hi. unfold rf_set_bal_value. destruct (aput_spec _ (rf_bal m) i v) as (b' & E & L & G); [lia|].
    rewrite E. cbn [obind]. exists (rf_with_bal b' m). split; [reflexivity|].
    split; [split; [exact Ho|split; [cbn [rf_bal rf_with_bal]; rewrite L; exact Lb|exact Lp]]|]. split; [reflexivity|]. exact G.
Qed.
Print Assumptions C37_rf_values.

Theorem C37_rf_phase_n : forall m pn, rf_complete m -> (rf_order m < Z.of_nat (length pn))%Z ->
  exists m', rf_set_phase_n_array pn m = Some (m', 0%Z) /\ rf_complete m' /\ rf_bal m' = rf_bal m /\
    (forall k, (0 <= k <= rf_order m)%Z -> rf_phase_n m' k = Some (nth (Z.to_nat k) pn 0)) /\
    (forall k, rf_phase_s m' k = rf_phase_s m k).
Proof.
  intros m kn (Ho & Lb & Lp) Hkn. unfold rf_set_phase_n_array.
  destruct (put_phases_spec R (Z.to_nat (rf_order m + 1)) 2 0 0 (aget kn) (rf_phase m) (fun j => nth (Z.to_nat j) kn 0))
    as (b1 & E1 & L1 & A1 & B1); [lia|lia|lia| |].
  { intros j Hj. apply aget_nth0. lia. }
  rewrite E1. cbn [obind]. exists (rf_with_phase b1 m). split; [reflexivity|].
  split; [split; [exact Ho|split; [exact Lb|cbn [rf_phase rf_with_phase]; rewrite L1; exact Lp]]|].
  split; [reflexivity|]. unfold rf_phase_n, rf_phase_s. cbn [rf_phase rf_with_phase]. split.
  - intros k Hk. specialize (A1 k). replace (0 + 2 * k)%Z with (2 * k)%Z in A1 by lia. rewrite A1 by lia.
    replace (0 + k)%Z with k by lia. reflexivity.
  - intros k. rewrite B1 by (intros; lia). reflexivity.
Qed.
Print Assumptions C37_rf_phase_n.

Example C37_rf_case : rf_complete sample_rfm /\ (rf_order sample_rfm < Z.of_nat (length [1; 2]))%Z.
Proof. split; [apply sample_rf_complete|reflexivity]. Qed.

Theorem C37_rf_copy : forall src dst, rf_complete src -> rf_complete dst -> rf_order dst = rf_order src ->
  exists m', rf_copy dst src = Some (m', 0%Z) /\ rf_elem m' = rf_elem src.
Proof.
  intros src dst (Ho & Lb & Lp) (Ho' & Lb' & Lp') E. unfold rf_copy. rewrite E, Z.eqb_refl.
  unfold rf_length. rewrite !acopy_all by lia. cbn [obind]. eexists. split; [reflexivity|].
  unfold rf_elem. cbn [rf_order rf_voltage rf_frequency rf_lag rf_bal rf_phase].
  replace (length (rf_bal dst)) with (length (rf_bal src)) by lia.
  replace (length (rf_phase dst)) with (length (rf_phase src)) by lia. rewrite !firstn_all. reflexivity.
Qed.
Print Assumptions C37_rf_copy.

(* every index below the order is refused when a single strength or phase is set *)
Theorem C37_rf_value_refuted : forall m k v, rf_complete m -> (0 <= k < rf_order m)%Z ->
  rf_set_knl_value ROps k v m = Some (m, (-1)%Z) /\ rf_set_ksl_value ROps k v m = Some (m, (-1)%Z) /\
  rf_set_phase_n_value k v m = Some (m, (-1)%Z) /\ rf_set_phase_s_value k v m = Some (m, (-1)%Z).
Proof.
  intros m k v _ Hk. unfold rf_set_knl_value, rf_set_ksl_value, rf_set_phase_n_value, rf_set_phase_s_value.
  assert (E : (rf_order m <=? k)%Z = false) by (apply Z.leb_gt; lia). rewrite E, andb_false_r. cbn [andb].
  repeat split; reflexivity.
Qed.
Print Assumptions C37_rf_value_refuted.

Example C37_rf_value_case : rf_complete sample_rfm /\ (0 <= 0 < rf_order sample_rfm)%Z.
Proof. split; [apply sample_rf_complete|cbn; lia]. Qed.

(* setting the skew strengths overwrites normal strengths and leaves all skew strengths as they
   were; setting the phases overwrites the strengths and leaves the phases *)
Theorem C37_rf_ksl_refuted : exists m', rf_set_ksl ROps [10; 20] sample_rfm = Some (m', 0%Z) /\
  rf_knl ROps m' 0 = Some 10 /\ rf_knl ROps sample_rfm 0 = Some 1 /\
  forall k, rf_ksl ROps m' k = rf_ksl ROps sample_rfm k.
Proof.
  eexists. split; [reflexivity|]. unfold rf_knl, rf_ksl. split; [|split].
  - cbn [rf_bal rf_with_bal upd Z.to_nat]. change (aget _ (2 * 0)) with (Some (ndiv ROps 10 (math_factorial ROps 1))).
    cbn [obind]. unfold math_factorial. change (aget factorial_table 1) with (Some 1%Z). change (aget factorial_table 0) with (Some 1%Z). cbv iota. rops. f_equal. field.
  - change (aget _ (2 * 0)) with (Some 1). cbn [obind]. unfold math_factorial. change (aget factorial_table 0) with (Some 1%Z). cbv iota. rops. f_equal. ring.
  - intros k. f_equal. cbn [rf_bal rf_with_bal sample_rfm upd Z.to_nat].
    destruct (Z_lt_dec (2 * k + 1) 0); [now rewrite !aget_neg by lia|]. rewrite !aget_nth by lia.
    destruct (Z.to_nat (2 * k + 1)) as [|i] eqn:E; [lia|]. destruct i as [|[|[|i]]]; try reflexivity; lia.
Qed.
Print Assumptions C37_rf_ksl_refuted.

(* the setter of all skew strengths of order 1 writes the first normal strength and no skew strength *)
Theorem C37_rf_all_ksl_refuted : exists m', rf_set_all_ksl_values ROps 10 sample_rfm = Some (m', 0%Z) /\
  rf_bal m' = [10 / math_factorial ROps 1; 2; 3; 4] /\ forall k, rf_ksl ROps m' k = rf_ksl ROps sample_rfm k.
Proof.
  eexists. split; [reflexivity|]. split; [reflexivity|]. unfold rf_ksl.
  intros k. f_equal. cbn [rf_bal rf_with_bal sample_rfm upd Z.to_nat].
  destruct (Z_lt_dec (2 * k + 1) 0); [now rewrite !aget_neg by lia|]. rewrite !aget_nth by lia.
  destruct (Z.to_nat (2 * k + 1)) as [|i] eqn:E; [lia|]. destruct i as [|[|[|i]]]; try reflexivity; lia.
Qed.
Print Assumptions C37_rf_all_ksl_refuted.

Theorem C37_rf_phase_refuted : exists m', rf_set_phase [10; 20; 30; 40] sample_rfm = Some (m', 0%Z) /\
  rf_phase m' = rf_phase sample_rfm /\ rf_bal m' = [10; 20; 30; 40].
Proof. eexists. split; [reflexivity|]. split; reflexivity. Qed.
Print Assumptions C37_rf_phase_refuted.

(* the setter of all normal phases writes the first order + 1 entries, normal and skew mixed *)
Theorem C37_rf_all_phase_n_refuted : exists m', rf_set_all_phase_n_values 9 sample_rfm = Some (m', 0%Z) /\
  rf_phase m' = [9; 9; 7; 8] /\ rf_phase_n m' 1 = Some 7.
Proof. eexists. split; [reflexivity|]. split; reflexivity. Qed.
Print Assumptions C37_rf_all_phase_n_refuted.

(* in the memory layout of a buffer (phases directly after the strengths) setting all phases does
   nothing, elsewhere it leaves the array *)
Theorem C37_rf_all_phases_refuted : forall m v, rf_complete m ->
  (rf_phase_addr m = (rf_bal_addr m + 8 * (2 * rf_order m + 2))%Z -> rf_set_all_phase_values v m = Some (m, 0%Z)) /\
  (rf_phase_addr m <> (rf_bal_addr m + 8 * (2 * rf_order m + 2))%Z -> rf_set_all_phase_values v m = None).
Proof.
  intros m v _. unfold rf_set_all_phase_values, rf_length. split; intros H.
  - rewrite H, Z.eqb_refl. reflexivity.
  - apply Z.eqb_neq in H. rewrite H. reflexivity.
Qed.
Print Assumptions C37_rf_all_phases_refuted.

(* the setters of the skew phases of order 1: the array setter writes the first normal phase, the
   setter of all writes the first skew phase only *)
Theorem C37_rf_phase_s_refuted :
  (exists m', rf_set_phase_s_array [10; 20] sample_rfm = Some (m', 0%Z) /\ rf_phase m' = [10; 6; 7; 8] /\
     forall k, rf_phase_s m' k = rf_phase_s sample_rfm k) /\
  (exists m', rf_set_all_phase_s_values 9 sample_rfm = Some (m', 0%Z) /\ rf_phase m' = [5; 9; 7; 8] /\ rf_phase_s m' 1 = Some 8).
Proof.
  split.
  - eexists. split; [reflexivity|]. split; [reflexivity|]. unfold rf_phase_s. intros k.
    cbn [rf_phase rf_with_phase sample_rfm upd Z.to_nat].
    destruct (Z_lt_dec (2 * k + 1) 0); [now rewrite !aget_neg by lia|]. rewrite !aget_nth by lia.
    destruct (Z.to_nat (2 * k + 1)) as [|i] eqn:E; [lia|]. destruct i as [|[|[|i]]]; try reflexivity; lia.
  - eexists. split; [reflexivity|]. split; reflexivity.
Qed.
Print Assumptions C37_rf_phase_s_refuted.
