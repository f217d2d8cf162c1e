(* Proofs about the propagation of the sigma matrix (C53). *)
From Coq Require Import ZArith Reals Lra Lia Bool.
From Coquelicot Require Import Coquelicot.
From Verif Require Import Num Particle Interp BeamFields MapsR BeamSpec BeamProofs FieldProofs.
Local Open Scope R_scope.

Lemma mysign_pos : forall a, 0 <= a -> mysign ROps a = 1.
Proof.
  intros. unfold mysign. rops. replace (Rleb 0 a) with true by (symmetry; apply Rleb_true; auto).
  replace (Rltb a 0) with false by (symmetry; apply Rltb_false; auto). reflexivity.
Qed.
Lemma mysign_neg : forall a, a < 0 -> mysign ROps a = -1.
Proof.
  intros. unfold mysign. rops. replace (Rleb 0 a) with false by (symmetry; apply Rleb_false; auto).
  replace (Rltb a 0) with true by (symmetry; apply Rltb_true; auto). reflexivity.
Qed.
Lemma mysign_sq : forall a, mysign ROps a * mysign ROps a = 1.
Proof. intros. destruct (Rle_lt_dec 0 a); [rewrite mysign_pos|rewrite mysign_neg]; auto; lra. Qed.
Lemma mysign_abs : forall a, mysign ROps a * a = Rabs a.
Proof.
  intros. destruct (Rle_lt_dec 0 a); [rewrite mysign_pos, Rabs_right|rewrite mysign_neg, Rabs_left]; auto; lra.
Qed.

(* half angles *)
Lemma half_angle : forall c2 sg, sg * sg = 1 -> -1 <= c2 <= 1 ->
  let co := sqrt (/ 2 * (1 + c2)) in let si := sg * sqrt (/ 2 * (1 - c2)) in
  co ^ 2 = / 2 * (1 + c2) /\ si ^ 2 = / 2 * (1 - c2) /\ 0 <= co.
Proof.
  intros c2 sg Hs Hc co si. split; [|split].
  - unfold co. rewrite <- Rsqr_pow2, Rsqr_sqrt by lra. reflexivity.
  - unfold si. replace ((sg * sqrt (/ 2 * (1 - c2))) ^ 2) with ((sg * sg) * (sqrt (/ 2 * (1 - c2)) * sqrt (/ 2 * (1 - c2)))) by ring.
    rewrite Hs, sqrt_sqrt by lra. ring.
  - apply sqrt_pos.
Qed.

Lemma ratio_le_1 : forall a b, 0 < a * a + b * b -> 0 <= Rabs a / sqrt (a * a + b * b) <= 1.
Proof.
  intros a b H. pose proof (sqrt_lt_R0 _ H) as Hs.
  assert (Rabs a <= sqrt (a * a + b * b)).
  { rewrite <- sqrt_Rsqr_abs. apply sqrt_le_1_alt. unfold Rsqr. nra. }
  pose proof (Rabs_pos a). split.
  - apply Rmult_le_pos; [auto|left; now apply Rinv_0_lt_compat].
  - apply Rmult_le_reg_r with (sqrt (a * a + b * b)); [auto|].
    unfold Rdiv. rewrite Rmult_assoc, Rinv_l by lra. lra.
Qed.

(* the regular branch *)
Section Regular.
Variables (R13 RR : R).
Let TT := RR * RR + 4 * R13 * R13.
Let rt := sqrt TT.
Let sR := mysign ROps RR.
Hypothesis HT : 0 < TT.

Lemma rt_pos : 0 < rt. Proof. apply sqrt_lt_R0. exact HT. Qed.
Lemma rt_sq : rt * rt = TT. Proof. apply sqrt_sqrt. lra. Qed.

Let c2 := sR * RR / rt.
Let co := sqrt (/ 2 * (1 + c2)).
Let si := sR * mysign ROps R13 * sqrt (/ 2 * (1 - c2)).

Lemma c2_range : 0 <= c2 <= 1.
Proof.
  unfold c2, sR, rt, TT. rewrite mysign_abs.
  replace (RR * RR + 4 * R13 * R13) with (RR * RR + (2 * R13) * (2 * R13)) by ring.
  apply ratio_le_1. unfold TT in HT. lra.
Qed.

Lemma sgs : (sR * mysign ROps R13) * (sR * mysign ROps R13) = 1.
Proof.
  replace ((sR * mysign ROps R13) * (sR * mysign ROps R13)) with ((sR * sR) * (mysign ROps R13 * mysign ROps R13)) by ring.
  unfold sR. rewrite !mysign_sq. ring.
Qed.

Lemma co_pos : 0 < co.
Proof. apply sqrt_lt_R0. pose proof c2_range. lra. Qed.

(* co si = Sig13 / (sR sqrt T) *)
Lemma co_si : co * si = sR * R13 / rt.
Proof.
  pose proof c2_range as Hc. pose proof rt_pos as Hp. pose proof rt_sq as Hq.
  unfold co, si. 
  replace (sqrt (/ 2 * (1 + c2)) * (sR * mysign ROps R13 * sqrt (/ 2 * (1 - c2))))
    with (sR * mysign ROps R13 * (sqrt (/ 2 * (1 + c2)) * sqrt (/ 2 * (1 - c2)))) by ring.
  rewrite <- sqrt_mult by lra.
  replace (/ 2 * (1 + c2) * (/ 2 * (1 - c2))) with (Rsqr (R13 / rt)).
  - rewrite sqrt_Rsqr_abs. unfold Rdiv at 1. rewrite Rabs_mult, (Rabs_right (/ rt)).
    + replace (sR * mysign ROps R13 * (Rabs R13 * / rt)) with (sR * (mysign ROps R13 * Rabs R13) / rt) by (field; lra).
      f_equal. f_equal. rewrite <- mysign_abs.
      replace (mysign ROps R13 * (mysign ROps R13 * R13)) with ((mysign ROps R13 * mysign ROps R13) * R13) by ring.
      rewrite mysign_sq. ring.
    + apply Rle_ge. left. now apply Rinv_0_lt_compat.
  - assert (E : c2 * c2 = RR * RR / TT).
    { unfold c2. replace (sR * RR / rt * (sR * RR / rt)) with ((sR * sR) * (RR * RR) / (rt * rt)) by (field; lra).
      unfold sR at 1 2. rewrite mysign_sq, Hq. field. lra. }
    replace (/ 2 * (1 + c2) * (/ 2 * (1 - c2))) with (/ 4 * (1 - c2 * c2)) by field.
    rewrite E. unfold Rsqr. replace (R13 / rt * (R13 / rt)) with (R13 * R13 / (rt * rt)) by (field; lra).
    rewrite Hq. unfold TT. field. unfold TT in HT. lra.
Qed.

Lemma regular_ok : forall W, co ^ 2 + si ^ 2 = 1 /\
  turned_x co si (/ 2 * (W + sR * rt)) (/ 2 * (W - sR * rt)) = / 2 * (W + RR) /\
  turned_y co si (/ 2 * (W + sR * rt)) (/ 2 * (W - sR * rt)) = / 2 * (W - RR) /\
  turned_xy co si (/ 2 * (W + sR * rt)) (/ 2 * (W - sR * rt)) = R13.
Proof.
  intros W. pose proof c2_range as Hc. pose proof rt_pos as Hp.
  destruct (half_angle c2 (sR * mysign ROps R13) sgs ltac:(lra)) as (E1 & E2 & _). fold co in E1. fold si in E2.
  assert (E3 : c2 * sR * rt = RR).
  { unfold c2. replace (sR * RR / rt * sR * rt) with ((sR * sR) * RR) by (field; lra). unfold sR. rewrite mysign_sq. ring. }
  split; [lra|]. unfold turned_x, turned_y, turned_xy. rewrite E1, E2, co_si. split; [|split].
  - replace (/ 2 * (1 + c2) * (/ 2 * (W + sR * rt)) + / 2 * (1 - c2) * (/ 2 * (W - sR * rt)))
      with (/ 2 * (W + c2 * sR * rt)) by field. now rewrite E3.
  - replace (/ 2 * (1 - c2) * (/ 2 * (W + sR * rt)) + / 2 * (1 + c2) * (/ 2 * (W - sR * rt)))
      with (/ 2 * (W - c2 * sR * rt)) by field. now rewrite E3.
  - replace (sR * R13 / rt * (/ 2 * (W + sR * rt) - / 2 * (W - sR * rt))) with ((sR * sR) * R13) by (field; lra).
    unfold sR. rewrite mysign_sq. ring.
Qed.
End Regular.

Definition dvar (a b S : R) : R := 2 * a + 2 * S * b.

Lemma sig11_R : forall d S, sg_11 d + 2 * sg_12 d * S + sg_22 d * S * S = var_x d S.
Proof. intros. unfold var_x. ring. Qed.
Lemma sig33_R : forall d S, sg_33 d + 2 * sg_34 d * S + sg_44 d * S * S = var_y d S.
Proof. intros. unfold var_y. ring. Qed.
Lemma sig13_R : forall d S, sg_13 d + (sg_14 d + sg_23 d) * S + sg_24 d * S * S = cov_xy d S.
Proof. intros. unfold cov_xy. ring. Qed.

Lemma asym_R : forall d S, (var_x d S - var_y d S) * (var_x d S - var_y d S) + 4 * cov_xy d S * cov_xy d S = asymmetry d S.
Proof. intros. unfold asymmetry. ring. Qed.

(* the regular branch, spelled out *)
Lemma regular_branch : forall d S th hs, (hs = false \/ th <= asymmetry d S) ->
  let R := var_x d S - var_y d S in let W := var_x d S + var_y d S in
  let rt := sqrt (asymmetry d S) in let sR := mysign ROps R in
  let c2 := sR * R / rt in
  let co := sqrt (/ 2 * (1 + c2)) in
  let si := sR * mysign ROps (cov_xy d S) * sqrt (/ 2 * (1 - c2)) in
  let dR := 2 * (sg_12 d - sg_34 d) + 2 * S * (sg_22 d - sg_44 d) in
  let dW := 2 * (sg_12 d + sg_34 d) + 2 * S * (sg_22 d + sg_44 d) in
  let d13 := sg_14 d + sg_23 d + 2 * sg_24 d * S in
  let dT := 2 * R * dR + 8 * cov_xy d S * d13 in
  let dc2 := sR * (dR / rt - R / (2 * rt * rt * rt) * dT) in
  propagate_sigma ROps d S th hs =
  mkSigHat (/ 2 * (W + sR * rt)) (/ 2 * (W - sR * rt)) co si
    (/ 2 * (dW + sR * / 2 / rt * dT)) (/ 2 * (dW - sR * / 2 / rt * dT))
    (1 / (4 * co) * dc2)
    (if Rltb (Rabs si) th && hs then d13 / R else - 1 / (4 * si) * dc2).
Proof.
  intros d S th hs H R W rt sR c2 co si dR dW d13 dT dc2.
  unfold propagate_sigma. rops. rewrite !half_R, !sig11_R, !sig33_R, !sig13_R, !asym_R.
  fold R W rt. change (mysign ROps R) with sR.
  replace (Rltb (asymmetry d S) th && hs) with false.
  2:{ symmetry. destruct H as [->|H]; [apply andb_false_r|]. apply andb_false_iff. left. now apply Rltb_false. }
  fold sR. fold c2. fold co. fold si. fold dR. fold dW.
  change (sg_14 d + sg_23 d + 2 * sg_24 d * S) with d13. fold dT. fold dc2.
  f_equal. destruct (Rltb (Rabs si) th && hs); [|reflexivity]. f_equal. unfold d13. ring.
Qed.

(* the branch for nearly round beams *)
Lemma round_branch : forall d S th, 0 < th -> asymmetry d S < th ->
  let h := propagate_sigma ROps d S th true in
  sh_11 h = / 2 * (var_x d S + var_y d S) /\ sh_33 h = / 2 * (var_x d S + var_y d S) /\
  sh_cos h ^ 2 + sh_sin h ^ 2 = 1.
Proof.
  intros d S th Hth H h. subst h. unfold propagate_sigma. rops.
  rewrite !half_R, !sig11_R, !sig33_R, !sig13_R, !asym_R.
  replace (Rltb (asymmetry d S) th && true) with true by (symmetry; rewrite andb_true_r; now apply Rltb_true).
  set (a := sg_12 d + sg_22 d * S - (sg_34 d + sg_44 d * S)).
  set (b := sg_22 d + 0 * S - (sg_44 d + 0 * S)).
  set (c := sg_14 d + sg_24 d * S + (sg_23 d + sg_24 d * S)).
  set (dd := sg_24 d + 0 * S).
  destruct (Rltb (sqrt (a * a + c * c) * sqrt (a * a + c * c) * sqrt (a * a + c * c)) th) eqn:E; cbn [sh_11 sh_33 sh_cos sh_sin].
  - split; [reflexivity|]. split; [reflexivity|].
    set (c2 := if Rltb th (Rabs dd) then Rabs b / sqrt (b * b + 4 * dd * dd) else 1).
    assert (Hc : 0 <= c2 <= 1).
    { unfold c2. destruct (Rltb th (Rabs dd)) eqn:E2; [|lra]. apply Rltb_true in E2.
      replace (b * b + 4 * dd * dd) with (b * b + (2 * dd) * (2 * dd)) by ring. apply ratio_le_1.
      assert (dd <> 0) by (intros Z; rewrite Z, Rabs_R0 in E2; lra).
      assert (0 < dd * dd) by (apply Rsqr_pos_lt in H0; exact H0). nra. }
    destruct (half_angle c2 (mysign ROps b * mysign ROps dd)) as (E1 & E2 & _); [|lra|].
    + replace ((mysign ROps b * mysign ROps dd) * (mysign ROps b * mysign ROps dd))
        with ((mysign ROps b * mysign ROps b) * (mysign ROps dd * mysign ROps dd)) by ring. rewrite !mysign_sq. ring.
    + rewrite E1, E2. field.
  - split; [reflexivity|]. split; [reflexivity|].
    apply Rltb_false in E. set (s := sqrt (a * a + c * c)) in *.
    assert (Hs : 0 < s).
    { assert (0 <= s) by apply sqrt_pos. destruct (Req_dec s 0) as [Z|]; [|lra]. rewrite Z in E. lra. }
    assert (Hsq : 0 < a * a + c * c). { destruct (Rlt_le_dec 0 (a * a + c * c)); auto. exfalso. unfold s in Hs. rewrite sqrt_neg_0 in Hs by auto. lra. }
    replace (Rabs (2 * a) / (2 * s)) with (Rabs a / s).
    2:{ rewrite Rabs_mult, (Rabs_right 2) by lra. field. lra. }
    pose proof (ratio_le_1 a c Hsq) as Hc. fold s in Hc.
    destruct (half_angle (Rabs a / s) (mysign ROps a * mysign ROps c)) as (E1 & E2 & _); [|lra|].
    + replace ((mysign ROps a * mysign ROps c) * (mysign ROps a * mysign ROps c))
        with ((mysign ROps a * mysign ROps a) * (mysign ROps c * mysign ROps c)) by ring. rewrite !mysign_sq. ring.
    + rewrite E1, E2. field; lra.
Qed.

(* derivatives *)
Lemma var_x_d : forall d S, is_derive (var_x d) S (2 * sg_12 d + 2 * S * sg_22 d).
Proof. intros. unfold var_x. auto_derive; auto. ring. Qed.
Lemma var_y_d : forall d S, is_derive (var_y d) S (2 * sg_34 d + 2 * S * sg_44 d).
Proof. intros. unfold var_y. auto_derive; auto. ring. Qed.
Lemma cov_d : forall d S, is_derive (cov_xy d) S (sg_14 d + sg_23 d + 2 * sg_24 d * S).
Proof. intros. unfold cov_xy. auto_derive; auto. ring. Qed.

Section Derivatives.
Variables (f g w : R -> R) (S f' g' w' : R).
Hypothesis Hf : is_derive f S f'.
Hypothesis Hg : is_derive g S g'.
Hypothesis Hw : is_derive w S w'.
Variable s : R.
Hypothesis Hs : s * s = 1.
Hypothesis Hpos : 0 < s * g S.
Let T (t : R) : R := g t ^ 2 + 4 * f t ^ 2.
Let T' : R := 2 * g S * g' + 8 * f S * f'.
Let c2 (t : R) : R := s * g t / sqrt (T t).
Let c2' : R := s * (g' / sqrt (T S) - g S / (2 * sqrt (T S) * sqrt (T S) * sqrt (T S)) * T').

Lemma T_pos : 0 < T S.
Proof.
  unfold T. assert (g S <> 0) by (intros E; rewrite E in Hpos; lra).
  pose proof (pow2_gt_0 (g S) H). pose proof (pow2_ge_0 (f S)). lra.
Qed.
Lemma T_d : is_derive T S T'.
Proof.
  unfold T, T'. auto_derive.
  - split; [exists g'; exact Hg|split; [exists f'; exact Hf|auto]].
  - change (Derive (fun x : R => f x) S) with (Derive f S). change (Derive (fun x : R => g x) S) with (Derive g S).
    rewrite (is_derive_unique _ _ _ Hf), (is_derive_unique _ _ _ Hg). ring.
Qed.
Lemma rtT_d : is_derive (fun t => sqrt (T t)) S (T' / (2 * sqrt (T S))).
Proof. apply is_derive_sqrt; [exact T_d|exact T_pos]. Qed.
Lemma c2_d : is_derive c2 S c2'.
Proof.
  pose proof (sqrt_lt_R0 _ T_pos) as Hr.
  pose proof (is_derive_div (fun t => s * g t) (fun t => sqrt (T t)) S (s * g') (T' / (2 * sqrt (T S)))
    (is_derive_scal g S s g' Hg) rtT_d ltac:(lra)) as D.
  match type of D with is_derive _ _ ?v => replace c2' with v; [exact D|] end.
  unfold c2'. match goal with |- ?u = ?v => change (@eq R u v) end. unfold scal, mult; cbn. field. lra.
Qed.
Lemma c2_pos : 0 < c2 S.
Proof. apply Rdiv_lt_0_compat; [exact Hpos|apply sqrt_lt_R0, T_pos]. Qed.
Lemma c2_le : c2 S <= 1.
Proof.
  pose proof (sqrt_lt_R0 _ T_pos) as Hr. unfold c2.
  apply Rmult_le_reg_r with (sqrt (T S)); [auto|]. unfold Rdiv. rewrite Rmult_assoc, Rinv_l, Rmult_1_r, Rmult_1_l by lra.
  rewrite <- (sqrt_pow2 (s * g S)) by lra. apply sqrt_le_1_alt. unfold T.
  replace ((s * g S) ^ 2) with ((s * s) * g S ^ 2) by ring. rewrite Hs. pose proof (pow2_ge_0 (f S)). lra.
Qed.

Lemma hats_d : is_derive (fun t => / 2 * (w t + s * sqrt (T t))) S (/ 2 * (w' + s * / 2 / sqrt (T S) * T')) /\
  is_derive (fun t => / 2 * (w t - s * sqrt (T t))) S (/ 2 * (w' - s * / 2 / sqrt (T S) * T')).
Proof.
  pose proof (sqrt_lt_R0 _ T_pos) as Hr. split.
  - replace (/ 2 * (w' + s * / 2 / sqrt (T S) * T')) with (/ 2 * (w' + s * (T' / (2 * sqrt (T S))))) by (field; lra).
    apply (is_derive_scal (fun t => w t + s * sqrt (T t))).
    apply (is_derive_plus w (fun t => s * sqrt (T t))); [exact Hw|]. apply (is_derive_scal (fun t => sqrt (T t))). exact rtT_d.
  - replace (/ 2 * (w' - s * / 2 / sqrt (T S) * T')) with (/ 2 * (w' - s * (T' / (2 * sqrt (T S))))) by (field; lra).
    apply (is_derive_scal (fun t => w t - s * sqrt (T t))).
    apply (is_derive_minus w (fun t => s * sqrt (T t))); [exact Hw|]. apply (is_derive_scal (fun t => sqrt (T t))). exact rtT_d.
Qed.

Lemma cos_d : is_derive (fun t => sqrt (/ 2 * (1 + c2 t))) S (1 / (4 * sqrt (/ 2 * (1 + c2 S))) * c2').
Proof.
  pose proof c2_pos as Hc. assert (Hq : 0 < / 2 * (1 + c2 S)) by lra. pose proof (sqrt_lt_R0 _ Hq) as Hr.
  replace (1 / (4 * sqrt (/ 2 * (1 + c2 S))) * c2') with (/ 2 * c2' / (2 * sqrt (/ 2 * (1 + c2 S)))) by (field; lra).
  apply (is_derive_sqrt (fun t => / 2 * (1 + c2 t))); [|exact Hq].
  apply (is_derive_scal (fun t => 1 + c2 t)).
  replace c2' with (0 + c2') by ring. apply (is_derive_plus (fun _ => 1) c2); [apply @is_derive_const|exact c2_d].
Qed.

Lemma sin_d : forall m, m * m = 1 -> c2 S <> 1 ->
  is_derive (fun t => s * m * sqrt (/ 2 * (1 - c2 t))) S (- 1 / (4 * (s * m * sqrt (/ 2 * (1 - c2 S)))) * c2').
Proof.
  intros m Hm Hne. pose proof c2_le as Hc. assert (Hq : 0 < / 2 * (1 - c2 S)) by lra. pose proof (sqrt_lt_R0 _ Hq) as Hr.
  assert (s <> 0 /\ m <> 0) as (Z1 & Z2) by (split; nra).
  replace (- 1 / (4 * (s * m * sqrt (/ 2 * (1 - c2 S)))) * c2')
    with (s * m * (/ 2 * (- c2') / (2 * sqrt (/ 2 * (1 - c2 S))))).
  2:{ generalize dependent (sqrt (/ 2 * (1 - c2 S))). intros q Hr. generalize c2'. intros k.
      apply Rmult_eq_reg_l with (s * m); [|now apply Rmult_integral_contrapositive].
      replace (s * m * (s * m * (/ 2 * - k / (2 * q)))) with ((s * s) * (m * m) * (/ 2 * - k / (2 * q))) by (field; lra).
      rewrite Hs, Hm. field. repeat split; auto; lra. }
  apply (is_derive_scal (fun t => sqrt (/ 2 * (1 - c2 t)))).
  apply (is_derive_sqrt (fun t => / 2 * (1 - c2 t))); [|exact Hq].
  apply (is_derive_scal (fun t => 1 - c2 t)).
  replace (- c2') with (0 - c2') by ring. apply (is_derive_minus (fun _ => 1) c2); [apply @is_derive_const|exact c2_d].
Qed.

(* where the covariance vanishes *)
Lemma sin_d0 : f S = 0 ->
  is_derive (fun t => s * f t / sqrt (T t) / sqrt (/ 2 * (1 + c2 t))) S (f' / g S).
Proof.
  intros H0. pose proof (sqrt_lt_R0 _ T_pos) as Hr.
  assert (HgS : g S <> 0) by (intros E; rewrite E in Hpos; lra).
  assert (Er : sqrt (T S) = s * g S).
  { rewrite <- (sqrt_pow2 (s * g S)) by lra. f_equal. unfold T. rewrite H0.
    replace ((s * g S) ^ 2) with ((s * s) * g S ^ 2) by ring. rewrite Hs. ring. }
  assert (Ec : c2 S = 1) by (unfold c2; rewrite Er; field; split; [exact HgS|nra]).
  assert (E1 : sqrt (/ 2 * (1 + c2 S)) = 1) by (rewrite Ec; replace (/ 2 * (1 + 1)) with 1 by field; apply sqrt_1).
  pose proof (is_derive_div (fun t => s * f t) (fun t => sqrt (T t)) S (s * f') (T' / (2 * sqrt (T S)))
    (is_derive_scal f S s f' Hf) rtT_d ltac:(lra)) as D1.
  pose proof (is_derive_div _ (fun t => sqrt (/ 2 * (1 + c2 t))) S _ _ D1 cos_d ltac:(lra)) as D.
  match type of D with is_derive _ _ ?v => replace (f' / g S) with v; [exact D|] end.
  match goal with |- ?u = ?v => change (@eq R u v) end. unfold scal, mult; cbn.
  rewrite E1, Er, H0. field. split; [exact HgS|]. nra.
Qed.
End Derivatives.
