(* Proofs about beam-beam and space-charge elements over the reals (C50-C52). *)
From Coq Require Import ZArith Reals Lra Lia Nsatz Bool.
From Coquelicot Require Import Coquelicot.
From Verif Require Import Num Particle Energy Interp BeamFields MapsR OpticsSpec OpticsProofs.
From Coq Require Import List.
Import ListNotations.
Local Open Scope R_scope.

(* the 3x3 matrix of the positions and its inverse *)
Section M.
Variables hx hy hz u s ca sa x y z : R.
Hypothesis Ha : ca * ca + sa * sa = 1.
Let t := s * u.
Let L11 := 1 + hx * ca * s. Let L12 := hx * sa * s. Let L13 := ca * t.
Let L21 := hy * ca * s. Let L22 := 1 + hy * sa * s. Let L23 := sa * t.
Let L31 := hz * ca * s. Let L32 := hz * sa * s. Let L33 := u.
Let Det := u + (hx * ca + hy * sa - hz * s) * t.
Let X := L11 * x + L12 * y + L13 * z.
Let Y := L21 * x + L22 * y + L23 * z.
Let Z := L31 * x + L32 * y + L33 * z.
Lemma M1 : (u + sa * t * (hy - hz * sa * s)) * X + (sa * t * (hz * ca * s - hx)) * Y
  + (- t * (ca - hx * sa * sa * s + hy * ca * sa * s)) * Z = Det * x.
Proof. unfold X, Y, Z, Det, L11, L12, L13, L21, L22, L23, L31, L32, L33, t. clear - Ha. nsatz. Qed.
Lemma M2 : (ca * t * (- hy + hz * sa * s)) * X + (u + ca * t * (hx - hz * ca * s)) * Y
  + (- t * (sa - hy * ca * ca * s + hx * ca * sa * s)) * Z = Det * y.
Proof. unfold X, Y, Z, Det, L11, L12, L13, L21, L22, L23, L31, L32, L33, t. clear - Ha. nsatz. Qed.
Lemma M3 : (- hz * ca * s) * X + (- hz * sa * s) * Y
  + (1 + hx * ca * s + hy * sa * s) * Z = Det * z.
Proof. unfold X, Y, Z, Det, L11, L12, L13, L21, L22, L23, L31, L32, L33, t. clear - Ha. nsatz. Qed.
End M.

(* ---- boost and inverse boost ---- *)
Section Boost.
Variables (b : boost_data R) (v : star R).
Let c := bo_cphi b. Let s := bo_sphi b. Let t := bo_tphi b.
Let ca := bo_calpha b. Let sa := bo_salpha b.
Let px := st_px v. Let py := st_py v. Let D := 1 + st_delta v.
Let pz := sqrt (D * D - px * px - py * py).
Let P := px * ca + py * sa.
Hypothesis Hc : 0 < c.
Hypothesis Ht : t = s / c.
Hypothesis Hsc : s * s + c * c = 1.
Hypothesis Ha : ca * ca + sa * sa = 1.
Hypothesis HD : 0 < D.
Hypothesis Hf : px * px + py * py < D * D.
Hypothesis Hb : P * s < pz * c.

Lemma pz_facts : 0 < pz /\ pz * pz = D * D - px * px - py * py.
Proof.
  assert (H : 0 < D * D - px * px - py * py) by lra. split.
  - apply sqrt_lt_R0. exact H.
  - unfold pz. apply sqrt_sqrt. lra.
Qed.

Let h := D - pz.
Let pxs := px / c - h * ca * t / c.
Let pys := py / c - h * sa * t / c.
Let ds := st_delta v - px * ca * t - py * sa * t + h * t * t.

Lemma c_inv : 1 / (c * c) = 1 + t * t.
Proof. rewrite Ht. rewrite <- Hsc at 1. field. lra. Qed.

Lemma pzs_sq : (1 + ds) * (1 + ds) - pxs * pxs - pys * pys = (pz - P * t) * (pz - P * t).
Proof.
  destruct pz_facts as (Hz & Hz2).
  assert (E : pxs * pxs + pys * pys = (px * px + py * py - 2 * h * t * P + h * h * t * t) * (1 / (c * c))).
  { unfold pxs, pys, P.
    replace (px * px + py * py - 2 * h * t * (px * ca + py * sa) + h * h * t * t)
      with (px * px + py * py - 2 * h * t * (px * ca + py * sa) + h * h * t * t * (ca * ca + sa * sa)) by (rewrite Ha; ring).
    field. lra. }
  replace ((1 + ds) * (1 + ds) - pxs * pxs - pys * pys) with ((1 + ds) * (1 + ds) - (pxs * pxs + pys * pys)) by ring.
  rewrite E, c_inv.
  assert (E2 : px * px + py * py = D * D - pz * pz) by lra. rewrite E2.
  unfold ds, P, h. replace (st_delta v) with (D - 1) by (unfold D; ring). ring.
Qed.

Lemma pzs_val : sqrt ((1 + ds) * (1 + ds) - pxs * pxs - pys * pys) = pz - P * t.
Proof.
  rewrite pzs_sq. apply sqrt_square.
  rewrite Ht. assert (P * (s / c) < pz); [|lra].
  apply Rmult_lt_reg_r with c; auto. replace (P * (s / c) * c) with (P * s) by (field; lra). exact Hb.
Qed.

Lemma pzs_pos : 0 < pz - P * t.
Proof.
  rewrite Ht. assert (P * (s / c) < pz); [|lra].
  apply Rmult_lt_reg_r with c; auto. replace (P * (s / c) * c) with (P * s) by (field; lra). exact Hb.
Qed.

Lemma boost_inverse : bb6d_inv_boost ROps b (bb6d_boost ROps b v) = v.
Proof.
  destruct pz_facts as (Hz & Hz2). pose proof pzs_pos as Hzs. pose proof pzs_val as Hv. pose proof c_inv as Hci.
  unfold bb6d_inv_boost, bb6d_boost. rops. cbn [st_x st_px st_y st_py st_sigma st_delta].
  fold c s t ca sa px py. 
  replace (st_delta v + 1) with D by (unfold D; ring). fold D. fold pz. fold h. fold pxs. fold pys. fold ds.
  rewrite Hv.
  replace (ds + 1) with (pz - P * t + h / (c * c)).
  2:{ unfold Rdiv. rewrite <- (Rmult_1_l (/ (c * c))). change (1 * / (c * c)) with (1 / (c * c)). rewrite Hci.
      unfold ds, P, h. replace (st_delta v) with (D - 1) by (unfold D; ring). ring. }
  set (zs := pz - P * t) in *.
  assert (Ez : pz = zs + P * t) by (unfold zs; ring).
  assert (EP : pxs * ca + pys * sa = (P - h * t) / c).
  { unfold pxs, pys, P. replace ((px * ca + py * sa - h * t) / c) with ((px * ca + py * sa - h * t * (ca * ca + sa * sa)) / c)
      by (rewrite Ha; field; lra). field. lra. }
  set (Det := 1 / c + (pxs / zs * ca + pys / zs * sa - (1 - (zs + h / (c * c)) / zs) * s) * t).
  assert (HDet : Det = pz / (c * zs)).
  { unfold Det.
    replace ((pxs / zs * ca + pys / zs * sa - (1 - (zs + h / (c * c)) / zs) * s) * t)
      with (((pxs * ca + pys * sa) + h / (c * c) * s) / zs * t) by (field; lra).
    rewrite EP, Ez, Ht. field. lra. }
  assert (HDet0 : Det <> 0). { rewrite HDet. apply Rgt_not_eq. apply Rdiv_lt_0_compat; [lra|]. apply Rmult_lt_0_compat; lra. }
  assert (Eh : (zs + h / (c * c) - zs) * c * c = h) by (field; lra). rewrite Eh.
  assert (Epx : pxs * c + h * ca * t = px) by (unfold pxs; field; lra).
  assert (Epy : pys * c + h * sa * t = py) by (unfold pys; field; lra).
  rewrite Epx, Epy.
  assert (Ed : ds + px * ca * t + py * sa * t - h * t * t = st_delta v) by (unfold ds; ring).
  rewrite Ed.
  set (hx := pxs / zs) in *. set (hy := pys / zs) in *. set (hz := 1 - (zs + h / (c * c)) / zs) in *.
  assert (Et : t = s * (1 / c)) by (rewrite Ht; field; lra).
  pose proof (M1 hx hy hz (1 / c) s ca sa (st_x v) (st_y v) (st_sigma v) Ha) as G1.
  pose proof (M2 hx hy hz (1 / c) s ca sa (st_x v) (st_y v) (st_sigma v) Ha) as G2.
  pose proof (M3 hx hy hz (1 / c) s ca sa (st_x v) (st_y v) (st_sigma v) Ha) as G3.
  rewrite <- Et in G1, G2, G3. fold Det in G1, G2, G3.
  destruct v as [vx vpx vy vpy vs vd]. cbn [st_x st_px st_y st_py st_sigma st_delta] in *.
  fold px py. f_equal.
  - apply Rmult_eq_reg_l with Det; auto. rewrite <- G1. field. split; auto; lra.
  - apply Rmult_eq_reg_l with Det; auto. rewrite <- G2. field. split; auto; lra.
  - apply Rmult_eq_reg_l with Det; auto. rewrite <- G3. field. split; auto; lra.
Qed.
End Boost.

(* ---- the complex error function never reads out of bounds ---- *)
Lemma trunc_range : forall x n, (0 <= n < 2 ^ 62)%Z -> 0 <= x <= IZR n ->
  exists m, RtruncZ x = Some m /\ (0 <= m <= n)%Z.
Proof.
  intros x n Hn Hx. unfold RtruncZ.
  assert (IZR n < IZR (2 ^ 63)) by (apply IZR_lt; lia).
  destruct (Rlt_dec (Rabs x) (IZR (2 ^ 63))) as [L|L].
  - destruct (Rle_dec 0 x) as [L0|L0]; [|lra].
    exists (Int_part x). split; [reflexivity|].
    destruct (base_Int_part x) as (A & B). split.
    + assert (-1 < Int_part x)%Z; [apply lt_IZR; lra|lia].
    + apply le_IZR. lra.
  - exfalso. apply L. rewrite Rabs_right; lra.
Qed.

Lemma rxy_length : forall xh yh k acc, length (cerrf_rxy ROps xh yh k acc) = (k + length acc)%nat.
Proof. induction k; intros acc; [reflexivity|]. cbn [cerrf_rxy]. rewrite IHk. cbn. lia. Qed.

Lemma sum_defined : forall h l k xl sx sy, (k <= length l)%nat -> exists w, cerrf_sum ROps h l k xl sx sy = Some w.
Proof.
  induction k; intros xl sx sy Hk; [eexists; reflexivity|]. cbn [cerrf_sum].
  destruct (nth_error l k) eqn:E; [apply IHk; lia|].
  apply nth_error_None in E. lia.
Qed.

Lemma cerrf_defined : forall x y, exists w, cerrf ROps x y = Some w.
Proof.
  intros x y. unfold cerrf. rops.
  set (xl := Rdec 533 (-2)). set (yl := Rdec 429 (-2)).
  assert (Hx : 0 < xl) by (unfold xl, Rdec; apply Rmult_lt_0_compat; [lra|apply powerRZ_lt; lra]).
  assert (Hy : 0 < yl) by (unfold yl, Rdec; apply Rmult_lt_0_compat; [lra|apply powerRZ_lt; lra]).
  clearbody xl yl.
  match goal with |- exists w, obind ?m _ = Some w => assert (Hm : exists z, m = Some z) end.
  2:{ destruct Hm as (z & ->). cbn [obind]. destruct (Rltb y 0); eexists; reflexivity. }
  destruct (Rltb (Rabs y) yl && Rltb (Rabs x) xl) eqn:E; [|eexists; reflexivity].
  apply andb_prop in E. destruct E as (E1 & E2). apply Rltb_true in E1, E2.
  set (q := (1 - Rabs y / yl) * sqrt (1 - Rabs x / xl * (Rabs x / xl))).
  assert (Hq : 0 <= q <= 1).
  { pose proof (Rabs_pos x) as Px. pose proof (Rabs_pos y) as Py.
    assert (0 <= Rabs y / yl < 1).
    { split; [apply Rmult_le_pos; [auto|left; now apply Rinv_0_lt_compat]|].
      apply Rmult_lt_reg_r with yl; auto. replace (Rabs y / yl * yl) with (Rabs y) by (field; lra). lra. }
    assert (0 <= Rabs x / xl < 1).
    { split; [apply Rmult_le_pos; [auto|left; now apply Rinv_0_lt_compat]|].
      apply Rmult_lt_reg_r with xl; auto. replace (Rabs x / xl * xl) with (Rabs x) by (field; lra). lra. }
    assert (0 <= sqrt (1 - Rabs x / xl * (Rabs x / xl)) <= 1).
    { split; [apply sqrt_pos|]. rewrite <- sqrt_1 at 2. apply sqrt_le_1_alt. nra. }
    unfold q. split; nra. }
  destruct (trunc_range (23 * q) 23) as (i23 & T1 & B1); [lia|lra|].
  destruct (trunc_range (21 * q) 21) as (i21 & T2 & B2); [lia|lra|].
  assert (B3 : (i23 <= i21 + 3)%Z).
  { unfold RtruncZ in T1, T2.
    destruct (Rlt_dec (Rabs (23 * q)) _); [|discriminate]. destruct (Rle_dec 0 (23 * q)); [|lra].
    destruct (Rlt_dec (Rabs (21 * q)) _); [|discriminate]. destruct (Rle_dec 0 (21 * q)); [|lra].
    assert (i23 = Int_part (23 * q)) by congruence. assert (i21 = Int_part (21 * q)) by congruence.
    destruct (base_Int_part (23 * q)) as (A1 & A2). destruct (base_Int_part (21 * q)) as (A3 & A4). subst.
    assert (Int_part (23 * q) < Int_part (21 * q) + 4)%Z; [|lia]. apply lt_IZR. rewrite plus_IZR. lra. }
  rewrite T1. cbn [obind]. rewrite T2. cbn [obind].
  replace ((0 <=? 10 + i21)%Z && (10 + i21 <? 33)%Z) with true by (symmetry; apply andb_true_intro; split; [apply Z.leb_le|apply Z.ltb_lt]; lia).
  match goal with |- context [cerrf_sum ROps ?h ?l ?k ?a ?b ?c] =>
    destruct (sum_defined h l k a b c) as (w & ->) end.
  - rewrite rxy_length. cbn [length]. lia.
  - cbn [obind]. eexists. reflexivity.
Qed.

Lemma ellip_defined : forall sx sy dx dy x y, exists e, field_ellip ROps sx sy dx dy x y = Some e.
Proof.
  intros. unfold field_ellip. rops.
  match goal with |- exists e, obind ?m _ = Some e => assert (Hm : exists z, m = Some z) end.
  2:{ destruct Hm as (z & ->). cbn [obind]. eexists; reflexivity. }
  destruct (Rltb sy sx).
  - match goal with |- context [cerrf ROps ?a ?b] => destruct (cerrf_defined a b) as (w1 & ->) end. cbn [obind].
    match goal with |- context [cerrf ROps ?a ?b] => destruct (cerrf_defined a b) as (w2 & ->) end. cbn [obind].
    eexists; reflexivity.
  - destruct (Rltb sx sy); [|eexists; reflexivity].
    match goal with |- context [cerrf ROps ?a ?b] => destruct (cerrf_defined a b) as (w1 & ->) end. cbn [obind].
    match goal with |- context [cerrf ROps ?a ?b] => destruct (cerrf_defined a b) as (w2 & ->) end. cbn [obind].
    eexists; reflexivity.
Qed.

Lemma fields_defined : forall x y sx sy msd skip, exists e, gauss_fields ROps x y sx sy msd skip = Some e.
Proof.
  intros. unfold gauss_fields. destruct (nltb _ _ _).
  - destruct skip; eexists; reflexivity.
  - match goal with |- context [field_ellip ?n ?a ?b ?c ?d ?e ?f] => destruct (ellip_defined a b c d e f) as (w & ->) end.
    cbn [obind]. destruct skip; eexists; reflexivity.
Qed.
