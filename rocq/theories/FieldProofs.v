(* Proofs about the field of a Gaussian beam (C51). *)
From Coq Require Import ZArith Reals Lra Lia Bool.
From Coquelicot Require Import Coquelicot.
From Verif Require Import Num Particle Interp BeamFields MapsR BeamSpec BeamProofs.
From Coq Require Import List.
Import ListNotations.
Local Open Scope R_scope.

Lemma half_R : half ROps = / 2.
Proof. unfold half. rops. unfold Rdec. change (powerRZ 10 (-1)) with (/ (10 * 1)). field. Qed.

Lemma eps0_model : Rdec 8854187817620 (-24) = eps0.
Proof. unfold Rdec, eps0. change (powerRZ 10 (-24)) with (/ (10 ^ 24)). reflexivity. Qed.

Lemma eps0_pos : 0 < eps0.
Proof. unfold eps0. apply Rdiv_lt_0_compat; [lra|apply pow_lt; lra]. Qed.

Lemma tiny : Rdec 1 (-20) = / 10 ^ 20.
Proof. unfold Rdec. change (powerRZ 10 (-20)) with (/ (10 ^ 20)). ring. Qed.

(* explicit form off the centre *)
Definition amp (sigma u : R) : R := (1 - exp (- u / (2 * sigma ^ 2))) / (2 * PI * eps0 * u).
Definition Exr (sigma x y : R) : R := amp sigma (x ^ 2 + y ^ 2) * x.
Definition Eyr (sigma x y : R) : R := amp sigma (x ^ 2 + y ^ 2) * y.

Section Round.
Variables (sx sy msd : R).
Let sigma := (sx + sy) / 2.
Hypothesis Hr : Rabs (sx - sy) < msd.
Hypothesis Hs : 0 < sigma.

Lemma round_case : forall x y, / 10 ^ 20 <= x ^ 2 + y ^ 2 ->
  gauss_fields ROps x y sx sy msd false =
  Some (Exr sigma x y, Eyr sigma x y,
        1 / (2 * (x ^ 2 + y ^ 2)) * (y * Eyr sigma x y - x * Exr sigma x y
           + 1 / (2 * PI * eps0 * sigma ^ 2) * x ^ 2 * exp (- (x ^ 2 + y ^ 2) / (2 * sigma ^ 2))),
        1 / (2 * (x ^ 2 + y ^ 2)) * (x * Exr sigma x y - y * Eyr sigma x y
           + 1 / (2 * PI * eps0 * sigma ^ 2) * y ^ 2 * exp (- (x ^ 2 + y ^ 2) / (2 * sigma ^ 2)))).
Proof.
  intros x y H. unfold gauss_fields. rops. rewrite half_R, eps0_model.
  replace (Rltb (Rabs (sx - sy)) msd) with true by (symmetry; apply Rltb_true; auto).
  unfold field_round. rops. rewrite half_R, eps0_model, tiny.
  replace ((x - 0) * (x - 0) + (y - 0) * (y - 0)) with (x ^ 2 + y ^ 2) by ring.
  replace (Rltb (x ^ 2 + y ^ 2) (/ 10 ^ 20)) with false by (symmetry; apply Rltb_false; auto).
  cbn [fst snd].
  replace (/ 2 * (sx + sy)) with sigma by (unfold sigma; field).
  replace (x * x + y * y) with (x ^ 2 + y ^ 2) by ring.
  replace (2 * sigma * sigma) with (2 * sigma ^ 2) by ring.
  replace (2 * PI * eps0 * sigma * sigma) with (2 * PI * eps0 * sigma ^ 2) by ring.
  replace (- / 2 * (x ^ 2 + y ^ 2) / (sigma * sigma)) with (- (x ^ 2 + y ^ 2) / (2 * sigma ^ 2)) by (field; lra).
  rewrite !Rminus_0_r. fold (amp sigma (x ^ 2 + y ^ 2)). fold (Exr sigma x y). fold (Eyr sigma x y).
  replace (1 / (2 * PI * eps0 * sigma ^ 2) * x * x) with (1 / (2 * PI * eps0 * sigma ^ 2) * x ^ 2) by ring.
  replace (1 / (2 * PI * eps0 * sigma ^ 2) * y * y) with (1 / (2 * PI * eps0 * sigma ^ 2) * y ^ 2) by ring.
  reflexivity.
Qed.

Lemma near_x : forall x y, / 10 ^ 20 < x ^ 2 + y ^ 2 -> locally x (fun t : R => / 10 ^ 20 < t ^ 2 + y ^ 2).
Proof.
  intros x y H.
  assert (C : continuous (fun t : R => t ^ 2 + y ^ 2) x).
  { apply (ex_derive_continuous (fun t : R => t ^ 2 + y ^ 2)). auto_derive. auto. }
  apply (C (fun u => / 10 ^ 20 < u)). apply (open_gt (/ 10 ^ 20)). exact H.
Qed.
Lemma near_y : forall x y, / 10 ^ 20 < x ^ 2 + y ^ 2 -> locally y (fun t : R => / 10 ^ 20 < x ^ 2 + t ^ 2).
Proof.
  intros x y H.
  assert (C : continuous (fun t : R => x ^ 2 + t ^ 2) y).
  { apply (ex_derive_continuous (fun t : R => x ^ 2 + t ^ 2)). auto_derive. auto. }
  apply (C (fun u => / 10 ^ 20 < u)). apply (open_gt (/ 10 ^ 20)). exact H.
Qed.
End Round.

(* derivatives of the explicit form *)
Lemma tiny_pos : 0 < / 10 ^ 20.
Proof. apply Rinv_0_lt_compat. apply pow_lt. lra. Qed.

Definition damp (sigma u : R) : R :=
  exp (- u / (2 * sigma ^ 2)) / (2 * sigma ^ 2) / (2 * PI * eps0 * u) - amp sigma u / u.

Lemma amp_derive : forall sigma u, 0 < sigma -> 0 < u -> is_derive (fun u : R => amp sigma u) u (damp sigma u).
Proof.
  intros sigma u Hs Hu. unfold amp, damp, amp. pose proof eps0_pos as He. pose proof PI_RGT_0 as Hp.
  generalize dependent eps0. generalize dependent PI. intros pi Hp e0 He.
  assert (Hd : 0 < 2 * pi * e0 * u) by (repeat apply Rmult_lt_0_compat; lra).
  auto_derive.
  - lra.
  - change (sigma * (sigma * 1)) with (sigma ^ 2). unfold Rminus, Rdiv. field. repeat split; nra.
Qed.

Lemma Exr_dx : forall sigma x y, 0 < sigma -> 0 < x ^ 2 + y ^ 2 ->
  is_derive (fun t : R => Exr sigma t y) x (amp sigma (x ^ 2 + y ^ 2) + 2 * x ^ 2 * damp sigma (x ^ 2 + y ^ 2)).
Proof.
  intros sigma x y Hs Hu. unfold Exr. evar_last.
  - apply (is_derive_mult (fun t : R => amp sigma (t ^ 2 + y ^ 2)) (fun t : R => t)).
    + apply (is_derive_comp (fun u : R => amp sigma u) (fun t : R => t ^ 2 + y ^ 2)).
      * apply amp_derive; auto.
      * auto_derive; auto.
    + auto_derive; auto.
    + intros; apply Rmult_comm.
  - unfold plus, mult, scal, mult; cbn -[pow]. unfold mult; cbn -[pow]. ring.
Qed.
Lemma Exr_dy : forall sigma x y, 0 < sigma -> 0 < x ^ 2 + y ^ 2 ->
  is_derive (fun t : R => Exr sigma x t) y (2 * x * y * damp sigma (x ^ 2 + y ^ 2)).
Proof.
  intros sigma x y Hs Hu. unfold Exr. evar_last.
  - apply (is_derive_mult (fun t : R => amp sigma (x ^ 2 + t ^ 2)) (fun t : R => x)).
    + apply (is_derive_comp (fun u : R => amp sigma u) (fun t : R => x ^ 2 + t ^ 2)).
      * apply amp_derive; auto.
      * auto_derive; auto.
    + auto_derive; auto.
    + intros; apply Rmult_comm.
  - unfold plus, mult, scal, mult; cbn -[pow]. unfold mult; cbn -[pow]. ring.
Qed.
Lemma swap_E : forall sigma x y, Eyr sigma x y = Exr sigma y x.
Proof. intros. unfold Eyr, Exr. now rewrite Rplus_comm. Qed.

(* ---- symmetries ---- *)
Definition swap4 (e : option (R * R * R * R)) : option (R * R * R * R) :=
  match e with Some (a, b, c, d) => Some (b, a, d, c) | None => None end.
Definition swap2 (e : option (R * R)) : option (R * R) :=
  match e with Some (a, b) => Some (b, a) | None => None end.

Lemma ellip_swap : forall sx sy x y, field_ellip ROps sy sx 0 0 y x = swap2 (field_ellip ROps sx sy 0 0 x y).
Proof.
  intros. unfold field_ellip. rops.
  destruct (Rltb sx sy) eqn:E1.
  - apply Rltb_true in E1.
    replace (Rltb sy sx) with false by (symmetry; apply Rltb_false; lra).
    repeat match goal with |- context [cerrf ROps ?a ?b] => destruct (cerrf_defined a b) as (? & ->); cbn [obind] end.
    cbn [swap2 fst snd]. reflexivity.
  - destruct (Rltb sy sx) eqn:E2.
    + repeat match goal with |- context [cerrf ROps ?a ?b] => destruct (cerrf_defined a b) as (? & ->); cbn [obind] end.
      cbn [swap2 fst snd]. reflexivity.
    + cbn [obind swap2 fst snd]. reflexivity.
Qed.

Lemma round_swap : forall s x y, field_round ROps s 0 0 y x = (snd (field_round ROps s 0 0 x y), fst (field_round ROps s 0 0 x y)).
Proof. intros. unfold field_round. rops. rewrite (Rplus_comm ((y - 0) * (y - 0))). reflexivity. Qed.

Lemma fields_swap : forall x y sx sy msd skip, gauss_fields ROps y x sy sx msd skip = swap4 (gauss_fields ROps x y sx sy msd skip).
Proof.
  intros. unfold gauss_fields. rops. rewrite (Rabs_minus_sym sy sx), (Rplus_comm sy sx), (Rplus_comm (y * y)).
  destruct (Rltb (Rabs (sx - sy)) msd).
  - rewrite round_swap. destruct skip; cbn [swap4 fst snd]; reflexivity.
  - rewrite ellip_swap. destruct (field_ellip ROps sx sy 0 0 x y) as [[a b]|]; [|reflexivity].
    cbn [swap2 obind]. destruct skip; [reflexivity|]. cbn [swap4 fst snd].
    do 2 f_equal.
    + f_equal. unfold Rdiv. rewrite (Rplus_comm (y * b)).
      replace (- y * y * / (2 * (sy * sy)) - x * x * / (2 * (sx * sx))) with (- x * x * / (2 * (sx * sx)) - y * y * / (2 * (sy * sy))) by ring.
      replace (2 * (sy * sy - sx * sx)) with (- (2 * (sx * sx - sy * sy))) by ring.
      destruct (Req_dec (2 * (sx * sx - sy * sy)) 0) as [E|E].
      * rewrite E, Ropp_0, Rinv_0. ring.
      * rewrite <- Ropp_inv_permute by auto. ring.
    + unfold Rdiv. rewrite (Rplus_comm (y * b)).
      replace (- y * y * / (2 * (sy * sy)) - x * x * / (2 * (sx * sx))) with (- x * x * / (2 * (sx * sx)) - y * y * / (2 * (sy * sy))) by ring.
      replace (2 * (sy * sy - sx * sx)) with (- (2 * (sx * sx - sy * sy))) by ring.
      destruct (Req_dec (2 * (sx * sx - sy * sy)) 0) as [E|E].
      * rewrite E, Ropp_0, Rinv_0. ring.
      * rewrite <- Ropp_inv_permute by auto. ring.
Qed.

(* w(iy) is real, w(x) has real part exp(-x^2) *)
Lemma r0_real : forall xh k r, snd r = 0 -> snd (cerrf_r0 ROps xh 0 k r) = 0.
Proof.
  induction k; intros r H; [exact H|]. cbn [cerrf_r0]. rops. apply IHk. cbn [snd]. rewrite H. unfold Rdiv. ring.
Qed.
Lemma rxy_real : forall xh k acc, List.Forall (fun r => snd r = 0) acc -> List.Forall (fun r => snd r = 0) (cerrf_rxy ROps xh 0 k acc).
Proof.
  induction k; intros acc H; [exact H|]. cbn [cerrf_rxy]. rops. apply IHk. constructor; [|exact H]. cbn [snd].
  replace (snd (hd (0, 0) acc)) with 0.
  - unfold Rdiv. ring.
  - destruct acc; [reflexivity|]. inversion H; subst. cbn. auto.
Qed.
Lemma sum_real : forall h l k xl a b w, List.Forall (fun r => snd r = 0) l -> b = 0 ->
  cerrf_sum ROps h l k xl a b = Some w -> snd w = 0.
Proof.
  induction k; intros xl a b w H Hb E; cbn [cerrf_sum] in E.
  - assert (w = (a, b)) by congruence. subst. reflexivity.
  - destruct (nth_error l k) as [r|] eqn:En; [|discriminate]. rops.
    assert (Hr : snd r = 0) by (eapply (proj1 (List.Forall_forall _ _) H); eapply nth_error_In; eauto).
    eapply IHk; [exact H| |exact E]. rewrite Hr, Hb. ring.
Qed.

Lemma cerrf_imag_axis : forall y w, 0 <= y -> cerrf ROps 0 y = Some w -> snd w = 0.
Proof.
  intros y w Hy E. unfold cerrf in E. rops. rewrite Rabs_R0 in E.
  replace (Rltb y 0) with false in E by (symmetry; apply Rltb_false; auto).
  replace (Rltb 0 0) with false in E by (symmetry; apply Rltb_false; lra).
  match type of E with obind ?m _ = _ => destruct m as [z|] eqn:Em; cbn [obind] in E; [|discriminate] end.
  assert (snd w = snd z) by (inversion E; reflexivity).
  rewrite H. clear E H.
  destruct (_ && _) in Em.
  - repeat match type of Em with obind ?m _ = _ => destruct m eqn:?; cbn [obind] in Em; [|discriminate] end.
    destruct (_ && _) in Em; [|discriminate].
    match type of Em with obind ?m _ = _ => destruct m as [u|] eqn:Eu; cbn [obind] in Em; [|discriminate] end.
    assert (snd u = 0).
    { eapply sum_real; [|reflexivity|exact Eu]. apply rxy_real. constructor; [reflexivity|constructor]. }
    assert (z = (Rdec 112837916709551 (-14) * fst u, Rdec 112837916709551 (-14) * snd u)) by congruence.
    subst z. cbn [snd]. rewrite H. ring.
  - assert (Hr : snd (cerrf_r0 ROps (Rabs y) 0 9 (0, 0)) = 0) by (apply r0_real; reflexivity).
    generalize dependent (cerrf_r0 ROps (Rabs y) 0 9 (0, 0)). intros r Em Hr.
    assert (Hz : z = (Rdec 112837916709551 (-14) * fst r, Rdec 112837916709551 (-14) * snd r)) by congruence.
    rewrite Hz. cbn [snd]. rewrite Hr. ring.
Qed.

Lemma cerrf_real_axis : forall x w, cerrf ROps x 0 = Some w -> fst w = exp (- Rabs x * Rabs x).
Proof.
  intros x w E. unfold cerrf in E. rops.
  match type of E with obind ?m _ = _ => destruct m as [z|] eqn:Em; cbn [obind] in E; [|discriminate] end.
  rewrite Rabs_R0 in E.
  replace (Rltb 0 0) with false in E by (symmetry; apply Rltb_false; lra).
  replace (Reqb 0 0) with true in E.
  - inversion E; reflexivity.
  - unfold Reqb. destruct (Req_EM_T 0 0); congruence.
Qed.

Lemma quot_pos : forall a b, 0 <= a -> 0 <= b -> 0 <= a / b.
Proof.
  intros a b Ha [Hb|Hb].
  - apply Rmult_le_pos; auto. left. now apply Rinv_0_lt_compat.
  - subst. unfold Rdiv. rewrite Rinv_0. lra.
Qed.

Lemma ellip_axis : forall sx sy y e, 0 < sx -> 0 < sy -> sx <> sy -> field_ellip ROps sx sy 0 0 0 y = Some e -> fst e = 0.
Proof.
  intros sx sy y e Hx Hy Hne E. unfold field_ellip in E. rops. rewrite !Rminus_0_r, Rabs_R0 in E.
  replace (Rltb 0 0) with false in E by (symmetry; apply Rltb_false; lra).
  destruct (Rltb sy sx) eqn:E1.
  - apply Rltb_true in E1. unfold Rdiv at 1 in E. rewrite Rmult_0_l in E.
    replace (sy / sx * 0 / sqrt (2 * (sx * sx - sy * sy))) with 0 in E by (unfold Rdiv; ring).
    match type of E with context [cerrf ROps 0 ?b] => destruct (cerrf ROps 0 b) as [w1|] eqn:F1; cbn [obind] in E; [|discriminate] end.
    match type of E with context [cerrf ROps 0 ?b] => destruct (cerrf ROps 0 b) as [w2|] eqn:F2; cbn [obind] in E; [|discriminate] end.
    apply cerrf_imag_axis in F1; [|apply quot_pos; [apply Rabs_pos|apply sqrt_pos]].
    apply cerrf_imag_axis in F2.
    + match type of E with Some (?a, _) = _ => assert (He : fst e = a) by (inversion E; reflexivity) end.
      rewrite He, F1, F2. cbn [fst]. ring.
    + apply quot_pos; [|apply sqrt_pos]. apply Rmult_le_pos; [apply quot_pos; lra|apply Rabs_pos].
  - apply Rltb_false in E1.
    replace (Rltb sx sy) with true in E by (symmetry; apply Rltb_true; lra).
    set (S := sqrt (2 * (sy * sy - sx * sx))) in *.
    assert (HS : 0 < 2 * (sy * sy - sx * sx)) by nra.
    assert (HS2 : S * S = 2 * (sy * sy - sx * sx)) by (apply sqrt_sqrt; lra).
    assert (HS0 : 0 < S) by (apply sqrt_lt_R0; auto).
    replace (0 / S) with 0 in E by (unfold Rdiv; ring).
    replace (sy / sx * 0 / S) with 0 in E by (unfold Rdiv; ring).
    match type of E with context [cerrf ROps ?b 0] => destruct (cerrf ROps b 0) as [w1|] eqn:F1; cbn [obind] in E; [|discriminate] end.
    match type of E with context [cerrf ROps ?b 0] => destruct (cerrf ROps b 0) as [w2|] eqn:F2; cbn [obind] in E; [|discriminate] end.
    apply cerrf_real_axis in F1. apply cerrf_real_axis in F2.
    match type of E with Some (?a, _) = _ => assert (He : fst e = a) by (inversion E; reflexivity) end.
    cbn [fst] in He. rewrite He, F1, F2, <- exp_plus.
    set (a := Rabs y). assert (Ha : 0 <= a) by apply Rabs_pos. clearbody a.
    rewrite !Rabs_right.
    2:{ apply Rle_ge. apply quot_pos; [|lra]. apply Rmult_le_pos; [apply quot_pos; lra|auto]. }
    2:{ apply Rle_ge. apply quot_pos; lra. }
    match goal with |- _ * (exp ?u - exp ?v) = 0 => replace u with v; [ring|] end.
    replace (- (a / S) * (a / S)) with (- (a * a) / (S * S)) by (field; lra).
    replace (- (sx / sy * a / S) * (sx / sy * a / S)) with (- (sx * sx / (sy * sy)) * (a * a) / (S * S)) by (field; lra).
    rewrite HS2. field. nra.
Qed.

Lemma ellip_odd : forall sx sy x y, 0 < sx -> 0 < sy -> sx <> sy ->
  exists a b, field_ellip ROps sx sy 0 0 x y = Some (a, b) /\ field_ellip ROps sx sy 0 0 (- x) y = Some (- a, b).
Proof.
  intros sx sy x y Hx Hy Hne.
  destruct (Req_dec x 0) as [->|Hx0].
  - rewrite Ropp_0. destruct (ellip_defined sx sy 0 0 0 y) as ((a & b) & E). exists a, b. split; [exact E|].
    pose proof (ellip_axis _ _ _ _ Hx Hy Hne E) as Z. cbn [fst] in Z. rewrite Z in *. rewrite Ropp_0. exact E.
  - destruct (ellip_defined sx sy 0 0 x y) as ((a & b) & E). exists a, b. split; [exact E|].
    unfold field_ellip in *. rops. rewrite !Rminus_0_r in *. rewrite Rabs_Ropp.
    match type of E with obind ?m _ = _ => destruct m as [z|]; cbn [obind] in *; [|discriminate] end.
    assert (Ha : (if Rltb x 0 then - fst z else fst z) = a) by congruence.
    assert (Hb : (if Rltb y 0 then - snd z else snd z) = b) by congruence.
    rewrite Hb. f_equal. f_equal. rewrite <- Ha. unfold Rltb.
    destruct (Rlt_dec x 0), (Rlt_dec (- x) 0); try lra.
Qed.

Lemma fields_odd : forall sx sy msd x y skip, 0 < sx -> 0 < sy -> 0 < msd ->
  exists a b gx gy, gauss_fields ROps x y sx sy msd skip = Some (a, b, gx, gy) /\
                    gauss_fields ROps (- x) y sx sy msd skip = Some (- a, b, gx, gy).
Proof.
  intros sx sy msd x y skip Hx Hy Hm. unfold gauss_fields. rops.
  destruct (Rltb (Rabs (sx - sy)) msd) eqn:E.
  - assert (F : field_round ROps (half ROps * (sx + sy)) 0 0 (- x) y =
      (- fst (field_round ROps (half ROps * (sx + sy)) 0 0 x y), snd (field_round ROps (half ROps * (sx + sy)) 0 0 x y))).
    { unfold field_round. rops. replace ((- x - 0) * (- x - 0)) with ((x - 0) * (x - 0)) by ring. cbn [fst snd].
      f_equal. ring. }
    rewrite F. cbn [fst snd]. replace (- x * - x) with (x * x) by ring.
    destruct skip; do 4 eexists; split; try reflexivity.
    do 2 f_equal; [do 1 f_equal; ring|ring].
  - apply Rltb_false in E.
    assert (Hne : sx <> sy). { intros ->. rewrite Rminus_diag_eq, Rabs_R0 in E by reflexivity. lra. }
    destruct (ellip_odd sx sy x y Hx Hy Hne) as (a & b & F1 & F2). rewrite F1, F2. cbn [obind fst snd].
    destruct skip; do 4 eexists; split; try reflexivity.
    replace (- - x * - x) with (- x * x) by ring.
    do 2 f_equal; [do 1 f_equal; ring|ring].
Qed.
