(* Theorems for C50-C53: beam-beam and space-charge elements over the reals. *)
From Coq Require Import ZArith Reals Lra Lia Bool.
From Coquelicot Require Import Coquelicot.
From Verif Require Import Num Particle Energy Interp BeamFields Elements Track MapsR OpticsSpec OpticsProofs
  BeamSpec BeamProofs FieldProofs SigmaProofs PropertiesOptics.
From Coq Require Import List.
Import ListNotations.
Local Open Scope R_scope.

(* ------------------------------------------------------------------ *)
(* C50 *)
(* The second change of frame undoes the first. *)
Theorem C50_boost_inverse : forall phi alpha b v, crossing phi alpha b -> 0 < cos phi -> forward phi alpha v ->
  bb6d_inv_boost ROps b (bb6d_boost ROps b v) = v.
Proof.
  intros phi alpha b v (H1 & H2 & H3 & H4 & H5) Hc (F1 & F2 & F3).
  apply boost_inverse; rewrite ?H1, ?H2, ?H3, ?H4, ?H5.
  - exact Hc.
  - reflexivity.
  - pose proof (sin2_cos2 phi). unfold Rsqr in *. lra.
  - pose proof (sin2_cos2 alpha). unfold Rsqr in *. lra.
  - exact F1.
  - nra.
  - unfold pz_of in F3.
    replace ((1 + st_delta v) ^ 2 - st_px v ^ 2 - st_py v ^ 2)
      with ((1 + st_delta v) * (1 + st_delta v) - st_px v * st_px v - st_py v * st_py v) in F3 by ring.
    exact F3.
Qed.
Print Assumptions C50_boost_inverse.

(* A slice without charge does not act. *)
Lemma slice_0 : forall b q0 P0 sl v, sl_N_part sl = 0 -> bb6d_slice ROps b q0 P0 sl v = Some v.
Proof.
  intros b q0 P0 sl v H. unfold bb6d_slice. rops. rewrite H.
  match goal with |- context [gauss_fields ROps ?x ?y ?a ?b ?c ?d] => destruct (fields_defined x y a b c d) as ((((Ex & Ey) & Gx) & Gy) & ->) end.
  cbn [obind]. f_equal. destruct v as [x px y py sg dl]. cbn [st_x st_px st_y st_py st_sigma st_delta].
  unfold Rdiv. f_equal; ring.
Qed.
Lemma slices_0 : forall b q0 P0 l v, (forall sl, In sl l -> sl_N_part sl = 0) -> bb6d_slices ROps b q0 P0 l v = Some v.
Proof.
  induction l; intros v H; [reflexivity|]. cbn [bb6d_slices].
  rewrite slice_0 by (apply H; now left). cbn [obind]. apply IHl. intros. apply H. now right.
Qed.

Lemma update_delta_same : forall p, consistent p -> update_delta ROps (p_delta p) p = p.
Proof.
  intros p (Hg & P & E & Hd). pose proof Hg as (Hp0 & Hm0 & _).
  assert (H1 : p_p0c p * (1 + p_delta p) = P) by (rewrite (d_delta _ _ _ Hd); field; lra).
  assert (Hpos : 0 < 1 + p_delta p).
  { rewrite (d_delta _ _ _ Hd). pose proof (d_momentum _ _ _ Hd).
    replace (1 + (P - p_p0c p) / p_p0c p) with (P / p_p0c p) by (field; lra). now apply Rdiv_lt_0_compat. }
  destruct (update_delta_ok p (p_delta p) Hg Hpos) as (A & B & C & D). cbv zeta in A, D. rewrite H1 in A.
  rewrite <- (d_shell _ _ _ Hd) in A.
  set (q := update_delta ROps (p_delta p) p) in *.
  destruct A as [_ _ A1 A2 A3 A4]. destruct Hd as [HP HE D1 D2 D3 D4].
  assert (R : p_rvv q = p_rvv p) by (rewrite A4, D4, D; reflexivity).
  assert (E1 : p_psigma q = p_psigma p) by (rewrite A2, D2, D; reflexivity).
  assert (E3 : p_rpp q = p_rpp p) by (rewrite A3, D3, D; reflexivity).
  unfold same_elsewhere in D. rewrite C, E1, B, E3, R in D. rewrite D. destruct p; reflexivity.
Qed.

(* coordinates of the particle relative to the reference of the element *)
Definition relative (b : bb6d R) (p : particle R) : star R :=
  mkStar (p_x p - b6_x_CO b - b6_delta_x b) (p_px p - b6_px_CO b) (p_y p - b6_y_CO b - b6_delta_y b)
         (p_py p - b6_py_CO b) (p_zeta p - b6_sigma_CO b) (p_delta p - b6_delta_CO b).

(* Against a beam without charge, with nothing to subtract, the element changes nothing. *)
Theorem C50_no_charge : forall phi alpha c b p outs,
  crossing phi alpha (b6_parboost b) -> 0 < cos phi -> forward phi alpha (relative b p) ->
  (forall sl, In sl (b6_slices b) -> sl_N_part sl = 0) ->
  b6_Dx_sub b = 0 -> b6_Dpx_sub b = 0 -> b6_Dy_sub b = 0 -> b6_Dpy_sub b = 0 -> b6_Dsigma_sub b = 0 -> b6_Ddelta_sub b = 0 ->
  consistent p -> c_bb6d c <> MDisabled ->
  dispatch ROps c (BBeamBeam6D b) p outs = Some (p, outs, 0%Z).
Proof.
  intros phi alpha c b p outs Hb Hc Hf Hn S1 S2 S3 S4 S5 S6 Hp Hm.
  assert (T : track_bb6d ROps b p = Some p).
  { unfold track_bb6d. rops. destruct (Rltb 0 (b6_enabled b)); [|reflexivity].
    rewrite slices_0 by exact Hn. cbn [obind].
    match goal with |- context [bb6d_inv_boost ROps ?bb ?w] => assert (G : bb6d_inv_boost ROps bb w = relative b p) end.
    { apply (C50_boost_inverse phi alpha); auto. }
    rewrite G. unfold relative. cbn [st_x st_px st_y st_py st_sigma st_delta].
    rewrite S1, S2, S3, S4, S5, S6.
    match goal with |- context [update_delta ROps ?d ?q] => replace d with (p_delta p) by ring; replace q with p end.
    - now rewrite update_delta_same.
    - destruct p; pupdate; f_equal; ring. }
  cbn [dispatch]. unfold run_map. rewrite T. destruct (c_bb6d c); try reflexivity. congruence.
Qed.
Print Assumptions C50_no_charge.

Example C50_case : crossing (PI / 4) 0 (mkBoost (sin (PI / 4)) (cos (PI / 4)) (tan (PI / 4)) (sin 0) (cos 0)) /\
  0 < cos (PI / 4) /\ forward (PI / 4) 0 (mkStar (1/10) (1/100) (1/5) (1/50) (1/7) (3/2)).
Proof.
  split; [repeat split|]. pose proof PI_RGT_0.
  assert (Hc : 0 < cos (PI / 4)) by (apply cos_gt_0; lra). split; [exact Hc|].
  assert (He : sin (PI / 4) = cos (PI / 4)) by (rewrite sin_PI4, cos_PI4; reflexivity).
  unfold forward, pz_of. cbn [st_px st_py st_delta]. rewrite He, cos_0, sin_0.
  split; [lra|]. split; [lra|].
  apply Rmult_lt_compat_r; [exact Hc|].
  rewrite <- (sqrt_square (1 / 100 * 1 + 1 / 50 * 0)) by lra. apply sqrt_lt_1_alt. lra.
Qed.

(* The field routine never fails for real arguments, so the elements are never undefined. *)
Theorem C50_defined : forall c b4 b6 sc sq p outs,
  dispatch ROps c (BBeamBeam4D b4) p outs <> None /\ dispatch ROps c (BBeamBeam6D b6) p outs <> None /\
  dispatch ROps c (BSCCoasting sc) p outs <> None /\ dispatch ROps c (BSCQGauss sq) p outs <> None.
Proof.
  intros. cbn [dispatch]. unfold run_map. repeat split.
  - assert (exists q, track_bb4d ROps b4 p = Some q) as (q & ->).
    { unfold track_bb4d. destruct (nltb _ _ _); [|eexists; reflexivity].
      match goal with |- context [gauss_fields ROps ?x ?y ?a ?b ?c ?d] => destruct (fields_defined x y a b c d) as ((((Ex & Ey) & Gx) & Gy) & ->) end.
      eexists; reflexivity. }
    destruct (c_bb4d c); discriminate.
  - assert (exists q, track_bb6d ROps b6 p = Some q) as (q & ->).
    { unfold track_bb6d. destruct (nltb _ _ _); [|eexists; reflexivity].
      assert (L : forall l q0 P0 v, exists w, bb6d_slices ROps b6 q0 P0 l v = Some w).
      { induction l; intros q0 P0 v; [eexists; reflexivity|]. cbn [bb6d_slices].
        assert (exists w, bb6d_slice ROps b6 q0 P0 a v = Some w) as (w & ->); [|apply IHl].
        unfold bb6d_slice.
        match goal with |- context [gauss_fields ROps ?x ?y ?a ?b ?c ?d] => destruct (fields_defined x y a b c d) as ((((Ex & Ey) & Gx) & Gy) & ->) end.
        eexists; reflexivity. }
      match goal with |- context [bb6d_slices ROps b6 ?q0 ?P0 ?l ?v] => destruct (L l q0 P0 v) as (w & ->) end.
      eexists; reflexivity. }
    destruct (c_bb6d c); discriminate.
  - assert (exists q, track_sc_coasting ROps sc p = Some q) as (q & ->).
    { unfold track_sc_coasting.
      match goal with |- context [gauss_fields ROps ?x ?y ?a ?b ?c ?d] => destruct (fields_defined x y a b c d) as ((((Ex & Ey) & Gx) & Gy) & ->) end.
      eexists; reflexivity. }
    destruct (c_sc c); discriminate.
  - assert (exists q, track_sc_qgauss ROps sq p = Some q) as (q & ->).
    { unfold track_sc_qgauss.
      match goal with |- context [gauss_fields ROps ?x ?y ?a ?b ?c ?d] => destruct (fields_defined x y a b c d) as ((((Ex & Ey) & Gx) & Gy) & ->) end.
      eexists; reflexivity. }
    destruct (c_sc c); discriminate.
Qed.
Print Assumptions C50_defined.

(* ------------------------------------------------------------------ *)
(* C51 *)
(* Round beams, away from the centre: the field has divergence density / eps0 and no curl,
   and Gx, Gy are half the derivatives of Ex, Ey. *)
Theorem C51_round_partial : forall sx sy msd x y, 
  let sigma := (sx + sy) / 2 in
  Rabs (sx - sy) < msd -> 0 < sigma -> / 10 ^ 20 < x ^ 2 + y ^ 2 ->
  exists exx exy eyy,
    is_derive (fun t : R => field_Ex sx sy msd t y) x exx /\
    is_derive (fun t : R => field_Ey sx sy msd x t) y eyy /\
    is_derive (fun t : R => field_Ex sx sy msd x t) y exy /\
    is_derive (fun t : R => field_Ey sx sy msd t y) x exy /\
    exx + eyy = round_density sigma x y / eps0 /\
    field_Gx sx sy msd x y = exx / 2 /\ field_Gy sx sy msd x y = eyy / 2.
Proof.
  intros sx sy msd x y sigma Hr Hs Hu. pose proof tiny_pos as Ht.
  assert (Hu0 : 0 < x ^ 2 + y ^ 2) by lra.
  assert (Hu0' : 0 < y ^ 2 + x ^ 2) by lra.
  exists (amp sigma (x ^ 2 + y ^ 2) + 2 * x ^ 2 * damp sigma (x ^ 2 + y ^ 2)), (2 * x * y * damp sigma (x ^ 2 + y ^ 2)),
         (amp sigma (x ^ 2 + y ^ 2) + 2 * y ^ 2 * damp sigma (x ^ 2 + y ^ 2)).
  split; [|split; [|split; [|split]]].
  - eapply is_derive_ext_loc; [|apply Exr_dx; auto].
    eapply filter_imp; [|apply (near_x x y Hu)]. intros t H. unfold field_Ex. now rewrite round_case by (auto; lra).
  - eapply is_derive_ext_loc with (f := fun t : R => Exr sigma t x).
    + eapply filter_imp; [|apply (near_y x y Hu)]. intros t H. unfold field_Ey.
      rewrite round_case by (auto; lra). symmetry. apply swap_E.
    + rewrite (Rplus_comm (x ^ 2)). apply Exr_dx; auto.
  - eapply is_derive_ext_loc; [|apply Exr_dy; auto].
    eapply filter_imp; [|apply (near_y x y Hu)]. intros t H. unfold field_Ex. now rewrite round_case by (auto; lra).
  - eapply is_derive_ext_loc with (f := fun t : R => Exr sigma y t).
    + eapply filter_imp; [|apply (near_x x y Hu)]. intros t H. unfold field_Ey.
      rewrite round_case by (auto; lra). symmetry. apply swap_E.
    + rewrite (Rplus_comm (x ^ 2)). replace (2 * x * y) with (2 * y * x) by ring. apply Exr_dy; auto.
  - unfold field_Gx, field_Gy. rewrite round_case by (auto; lra). fold sigma.
    unfold Exr, Eyr, damp, amp, round_density. pose proof eps0_pos as He. pose proof PI_RGT_0 as Hp.
    generalize dependent eps0. generalize dependent PI. intros pi Hp e0 He.
    generalize (exp (- (x ^ 2 + y ^ 2) / (2 * sigma ^ 2))). intros ex.
    assert (x ^ 2 + y ^ 2 <> 0) by lra.
    repeat split; field; repeat split; auto; lra.
Qed.
Print Assumptions C51_round_partial.

(* At the centre of a round beam this fails: the field gradient computed there is 0. *)
Theorem C51_centre_refuted : exists sx sy msd exx eyy,
  Rabs (sx - sy) < msd /\ 0 < (sx + sy) / 2 /\
  is_derive (fun t : R => field_Ex sx sy msd t 0) 0 exx /\
  is_derive (fun t : R => field_Ey sx sy msd 0 t) 0 eyy /\
  exx + eyy <> round_density ((sx + sy) / 2) 0 0 / eps0.
Proof.
  exists 1, 1, 1, 0, 0.
  assert (Hr : Rabs (1 - 1) < 1) by (rewrite Rminus_diag_eq, Rabs_R0 by reflexivity; lra).
  split; [exact Hr|]. split; [lra|].
  pose proof tiny_pos as Ht. pose proof eps0_pos as He. pose proof PI_RGT_0 as Hp.
  set (k := 2 * PI * eps0 * 1).
  assert (Hk : 0 < k) by (unfold k; rewrite Rmult_1_r; apply Rmult_lt_0_compat; [lra|exact He]).
  assert (F : forall x y, x ^ 2 + y ^ 2 < / 10 ^ 20 ->
    gauss_fields ROps x y 1 1 1 false <> None /\
    field_Ex 1 1 1 x y = sqrt (x ^ 2 + y ^ 2) / k * x /\ field_Ey 1 1 1 x y = sqrt (x ^ 2 + y ^ 2) / k * y).
  { intros x y Hxy. unfold field_Ex, field_Ey, gauss_fields. rops.
    replace (Rltb (Rabs (1 - 1)) 1) with true by (symmetry; apply Rltb_true; auto).
    unfold field_round. rops. rewrite eps0_model, tiny, half_R. cbn [fst snd].
    replace ((x - 0) * (x - 0) + (y - 0) * (y - 0)) with (x ^ 2 + y ^ 2) by ring.
    replace (Rltb (x ^ 2 + y ^ 2) (/ 10 ^ 20)) with true by (symmetry; apply Rltb_true; auto).
    rewrite !Rminus_0_r. replace (2 * PI * eps0 * (/ 2 * (1 + 1))) with k by (unfold k; field).
    split; [discriminate|]. split; reflexivity. }
  assert (D : is_derive (fun t : R => Rabs t / k * t) 0 0).
  { apply is_derive_Reals. intros eps Heps.
    assert (Hd : 0 < eps * k) by (apply Rmult_lt_0_compat; lra).
    exists (mkposreal _ Hd). intros h Hh0 Hh. cbn in Hh. rewrite Rplus_0_l, Rabs_R0.
    replace ((Rabs h / k * h - 0 / k * 0) / h - 0) with (Rabs h / k) by (field; lra).
    unfold Rdiv. rewrite Rabs_mult, Rabs_Rabsolu, (Rabs_right (/ k)).
    - apply Rmult_lt_reg_r with k; [lra|]. rewrite Rmult_assoc, Rinv_l, Rmult_1_r by lra. exact Hh.
    - apply Rle_ge. left. now apply Rinv_0_lt_compat. }
  assert (N : locally 0 (fun t : R => t ^ 2 < / 10 ^ 20)).
  { assert (C : continuous (fun t : R => t ^ 2) 0).
    { apply (ex_derive_continuous (fun t : R => t ^ 2)). auto_derive. auto. }
    apply (C (fun u => u < / 10 ^ 20)). apply (open_lt (/ 10 ^ 20)). rewrite pow_ne_zero by lia. exact Ht. }
  split; [|split].
  - eapply is_derive_ext_loc; [|exact D]. eapply filter_imp; [|exact N]. intros t H.
    destruct (F t 0) as (_ & -> & _); [rewrite pow_ne_zero by lia; lra|].
    rewrite (pow_ne_zero 2), Rplus_0_r by lia. replace (t ^ 2) with (Rsqr t) by (unfold Rsqr; ring).
    now rewrite sqrt_Rsqr_abs.
  - eapply is_derive_ext_loc; [|exact D]. eapply filter_imp; [|exact N]. intros t H.
    destruct (F 0 t) as (_ & _ & ->); [rewrite pow_ne_zero by lia; lra|].
    rewrite (pow_ne_zero 2), Rplus_0_l by lia. replace (t ^ 2) with (Rsqr t) by (unfold Rsqr; ring).
    now rewrite sqrt_Rsqr_abs.
  - unfold round_density. rewrite !pow_ne_zero by lia. rewrite Rplus_0_r.
    replace (- 0 / (2 * ((1 + 1) / 2) ^ 2)) with 0 by field. rewrite exp_0.
    apply Rlt_not_eq. rewrite ?Rplus_0_r. apply Rdiv_lt_0_compat; [|exact He].
    apply Rdiv_lt_0_compat; [lra|]. replace (((1 + 1) / 2) ^ 2) with 1 by field. lra.
Qed.
Print Assumptions C51_centre_refuted.

(* Round and elliptical beams: the field is odd under mirror reflections, and exchanging
   the planes exchanges its components. *)
Theorem C51_symmetric : forall sx sy msd x y, 0 < sx -> 0 < sy -> 0 < msd ->
  field_Ex sx sy msd (- x) y = - field_Ex sx sy msd x y /\ field_Ey sx sy msd (- x) y = field_Ey sx sy msd x y /\
  field_Ex sx sy msd x (- y) = field_Ex sx sy msd x y /\ field_Ey sx sy msd x (- y) = - field_Ey sx sy msd x y /\
  field_Ex sy sx msd y x = field_Ey sx sy msd x y /\ field_Gx sy sx msd y x = field_Gy sx sy msd x y.
Proof.
  intros sx sy msd x y Hx Hy Hm.
  destruct (fields_odd sx sy msd x y false Hx Hy Hm) as (a & b & gx & gy & E1 & E2).
  destruct (fields_odd sy sx msd y x false Hy Hx Hm) as (a' & b' & gx' & gy' & E3 & E4).
  pose proof (fields_swap x y sx sy msd false) as W. rewrite E1 in W. cbn [swap4] in W.
  pose proof (fields_swap x (- y) sx sy msd false) as W2. rewrite E4 in W2.
  rewrite E3 in W.
  unfold field_Ex, field_Ey, field_Gx, field_Gy. rewrite E1, E2, E3.
  destruct (gauss_fields ROps x (- y) sx sy msd false) as [[[[u1 u2] u3] u4]|] eqn:E5; [|discriminate].
  cbn [swap4] in W2.
  assert (a' = b /\ b' = a /\ gx' = gy) as (-> & -> & ->) by (repeat split; congruence).
  assert (u2 = - b /\ u1 = a) as (-> & ->) by (split; congruence).
  repeat split; reflexivity.
Qed.
Print Assumptions C51_symmetric.

(* ------------------------------------------------------------------ *)
(* C52 *)
(* elementary charge of the header: 1.60217662e-19 C *)
Lemma qelem_pos : 0 < Rdec 160217662 (-27).
Proof. unfold Rdec. apply Rmult_lt_0_compat; [lra|apply powerRZ_lt; lra]. Qed.

(* Momentum kick of a beam of N particles of charge q_part (in C) that meets the particle
   with velocity beta_s: Lorentz force integrated over the passage, for a particle of
   velocity beta, in units of the reference momentum. *)
Definition beam_kick (b : bb4d R) (p : particle R) (beta E : R) : R :=
  p_chi p * p_q0 p * b4_N_part b * b4_q_part b * (1 + beta * b4_beta_s b) / (p_p0c p * (beta + b4_beta_s b)) * E.

Lemma bb4d_is : forall b p, 0 < b4_enabled b -> p_p0c p <> 0 ->
  p_beta0 p / p_rvv p + b4_beta_s b <> 0 ->
  let x := p_x p - b4_Delta_x b in let y := p_y p - b4_Delta_y b in
  let Ex := field_Ex (b4_sigma_x b) (b4_sigma_y b) (b4_min_sigma_diff b) x y in
  let Ey := field_Ey (b4_sigma_x b) (b4_sigma_y b) (b4_min_sigma_diff b) x y in
  track_bb4d ROps b p =
  Some (set_py (p_py p + beam_kick b p (p_beta0 p / p_rvv p) Ey - b4_Dpy_sub b)
         (set_px (p_px p + beam_kick b p (p_beta0 p / p_rvv p) Ex - b4_Dpx_sub b) p)).
Proof.
  intros b p He Hp Hb x y Ex Ey. unfold track_bb4d. rops.
  replace (Rltb 0 (b4_enabled b)) with true by (symmetry; apply Rltb_true; auto).
  fold x. fold y.
  assert (G : exists gx gy, gauss_fields ROps x y (b4_sigma_x b) (b4_sigma_y b) (b4_min_sigma_diff b) true = Some (Ex, Ey, gx, gy)).
  { unfold Ex, Ey, field_Ex, field_Ey, gauss_fields. destruct (nltb _ _ _); [do 2 eexists; reflexivity|].
    match goal with |- context [field_ellip ?n ?a ?b ?c ?d ?e ?f] => destruct (ellip_defined a b c d e f) as (w & ->) end.
    cbn [obind]. do 2 eexists; reflexivity. }
  destruct G as (gx & gy & ->). cbn [obind]. pose proof qelem_pos as Hq.
  f_equal. unfold beam_kick. set (bt := p_beta0 p / p_rvv p) in *.
  f_equal; [|f_equal]; field; repeat split; auto; lra.
Qed.

(* A particle with the velocity of the reference particle gets exactly that kick. *)
Theorem C52_beam_beam_partial : forall c b p outs P E, good_reference p -> describes p P E -> p_rvv p = 1 ->
  0 < b4_enabled b -> 0 < b4_beta_s b -> c_bb4d c = MEnabled \/ c_bb4d c = MUndef ->
  let x := p_x p - b4_Delta_x b in let y := p_y p - b4_Delta_y b in
  exists q, dispatch ROps c (BBeamBeam4D b) p outs = Some (q, outs, 0%Z) /\
  p_px q = p_px p + beam_kick b p (P / E) (field_Ex (b4_sigma_x b) (b4_sigma_y b) (b4_min_sigma_diff b) x y) - b4_Dpx_sub b /\
  p_py q = p_py p + beam_kick b p (P / E) (field_Ey (b4_sigma_x b) (b4_sigma_y b) (b4_min_sigma_diff b) x y) - b4_Dpy_sub b /\
  p_x q = p_x p /\ p_y q = p_y p /\ p_delta q = p_delta p /\ p_zeta q = p_zeta p.
Proof.
  intros c b p outs P E Hg Hd Hr He Hbs Hc x y.
  destruct (C31_consistent p P E Hg Hd) as (_ & Hv & _).
  pose proof Hg as (Hp0 & Hm0 & Hb0). destruct (energy0_pos p Hg) as (HE0 & _).
  assert (B0 : 0 < p_beta0 p) by (rewrite Hb0; apply Rdiv_lt_0_compat; auto).
  assert (EV : p_beta0 p / p_rvv p = P / E).
  { rewrite Hr. rewrite Hr in Hv. apply (f_equal (fun u => u * p_beta0 p)) in Hv.
    set (v := P / E) in *. replace (v / p_beta0 p * p_beta0 p) with v in Hv by (field; lra). lra. }
  pose proof (bb4d_is b p He ltac:(lra)) as T. cbv zeta in T. fold x in T. fold y in T. rewrite EV in T.
  assert (Hne : P / E + b4_beta_s b <> 0). { rewrite <- EV, Hr. unfold Rdiv. rewrite Rinv_1. lra. }
  specialize (T Hne). cbn [dispatch]. unfold run_map. rewrite T.
  eexists. split; [destruct Hc as [->| ->]; reflexivity|]. pfields. repeat split.
Qed.
Print Assumptions C52_beam_beam_partial.

(* For any other particle the velocity used in the kick is not that of the particle: it is
   the inverse of the velocity ratio that is applied to the reference velocity. *)
Theorem C52_beam_beam_refuted : exists c b p outs P E q, good_reference p /\ describes p P E /\
  0 < b4_enabled b /\ 0 < b4_beta_s b < 1 /\
  dispatch ROps c (BBeamBeam4D b) p outs = Some (q, outs, 0%Z) /\
  p_px q <> p_px p + beam_kick b p (P / E)
    (field_Ex (b4_sigma_x b) (b4_sigma_y b) (b4_min_sigma_diff b) (p_x p - b4_Delta_x b) (p_y p - b4_Delta_y b)) - b4_Dpx_sub b.
Proof.
  set (b := mkBB4D 1 1 1 1 (1/2) 1 0 0 0 0 1).
  pose proof sample_ok as (Hg & Hd).
  assert (He : 0 < b4_enabled b) by (cbn; lra).
  assert (Hne : p_beta0 sample / p_rvv sample + b4_beta_s b <> 0) by (cbn; lra).
  pose proof (bb4d_is b sample He ltac:(cbn; lra) Hne) as T. cbv zeta in T.
  eexists wide, b, sample, [], (15/2), (17/2), _.
  split; [exact Hg|]. split; [exact Hd|]. split; [exact He|]. split; [cbn; lra|].
  split; [cbn [dispatch]; unfold run_map; rewrite T; reflexivity|].
  cbn [p_px set_py set_px].
  set (Ex := field_Ex _ _ _ _ _).
  assert (HE : Ex <> 0).
  { unfold Ex, field_Ex. cbn [b4_sigma_x b4_sigma_y b4_min_sigma_diff b4_Delta_x b4_Delta_y b p_x p_y sample].
    rewrite round_case.
    - unfold Exr, amp. apply Rgt_not_eq.
      set (u := (1 / 10 - 0) ^ 2 + (-1 / 5 - 0) ^ 2). assert (Hu : u = 5 / 100) by (unfold u; lra). rewrite Hu.
      pose proof eps0_pos as H1. pose proof PI_RGT_0 as H2.
      assert (exp (- (5 / 100) / (2 * ((1 + 1) / 2) ^ 2)) < 1).
      { replace (- (5 / 100) / (2 * ((1 + 1) / 2) ^ 2)) with (- (25 / 1000)) by field.
        pose proof (exp_increasing (- (25 / 1000)) 0 ltac:(lra)) as G. rewrite exp_0 in G. exact G. }
      apply Rmult_lt_0_compat; [|lra]. apply Rdiv_lt_0_compat; [lra|].
      apply Rmult_lt_0_compat; [|lra]. apply Rmult_lt_0_compat; [lra|exact H1].
    - rewrite Rminus_diag_eq, Rabs_R0 by reflexivity. lra.
    - lra.
    - left. apply Rmult_lt_reg_r with (10 ^ 20); [apply pow_lt; lra|].
      rewrite Rinv_l by (apply pow_nonzero; lra). cbn [pow]. lra. }
  clearbody Ex. unfold beam_kick. cbn [p_chi p_q0 b4_N_part b4_q_part b4_beta_s p_p0c p_beta0 p_rvv b sample b4_Dpx_sub].
  intros X. apply HE.
  assert (K : forall k1 k2, k1 <> k2 -> k1 * Ex = k2 * Ex -> Ex = 0) by (intros k1 k2 H1 H2; nra).
  eapply K; [|apply (f_equal (fun w => w - p_px sample + 0)) in X].
  2:{ match type of X with ?A = ?B => match A with _ + ?k1 * Ex - _ - _ + _ => match B with _ + ?k2 * Ex - _ - _ + _ =>
        assert (X2 : k1 * Ex = k2 * Ex) by lra end end end. exact X2. }
  lra.
Qed.
Print Assumptions C52_beam_beam_refuted.

Definition on_momentum : particle R :=
  mkParticle 1 4 (3/5) (5/4) 3 0 (1/10) (-1/5) (1/100) (1/50) (1/7) 0 0 1 1 1 1 7 0 0 1.
Example C52_case : good_reference on_momentum /\ describes on_momentum 3 5 /\ p_rvv on_momentum = 1.
Proof.
  assert (E : energy0 on_momentum = 5) by (unfold energy0; cbn [p_p0c p_mass0 on_momentum]; apply sqrt_is; lra).
  split; [|split; [|reflexivity]].
  - unfold good_reference. rewrite E. cbn [p_p0c p_mass0 p_beta0 on_momentum]. lra.
  - constructor; rewrite ?E; cbn [p_p0c p_mass0 p_beta0 p_delta p_psigma p_rpp p_rvv on_momentum]; try lra.
    symmetry. apply sqrt_is; lra.
Qed.

(* ------------------------------------------------------------------ *)
(* C53 *)
(* The axes and sizes computed for the opposing beam describe the transverse sizes it has
   at the collision point. *)
Theorem C53_axes : forall d S th, 0 < th -> th <= asymmetry d S ->
  let h := propagate_sigma ROps d S th true in
  sh_cos h ^ 2 + sh_sin h ^ 2 = 1 /\
  turned_x (sh_cos h) (sh_sin h) (sh_11 h) (sh_33 h) = var_x d S /\
  turned_y (sh_cos h) (sh_sin h) (sh_11 h) (sh_33 h) = var_y d S /\
  turned_xy (sh_cos h) (sh_sin h) (sh_11 h) (sh_33 h) = cov_xy d S.
Proof.
  intros d S th Hth H h. unfold h. rewrite regular_branch by auto. cbv zeta. cbn [sh_11 sh_33 sh_cos sh_sin].
  assert (HT : 0 < (var_x d S - var_y d S) * (var_x d S - var_y d S) + 4 * cov_xy d S * cov_xy d S) by (rewrite asym_R; lra).
  destruct (regular_ok (cov_xy d S) (var_x d S - var_y d S) HT (var_x d S + var_y d S)) as (A & B & C & D).
  rewrite asym_R in A, B, C, D. split; [exact A|]. split; [rewrite B; field|]. split; [rewrite C; field|exact D].
Qed.
Print Assumptions C53_axes.

(* A nearly round beam is taken as round; the error is bounded by the threshold. *)
Theorem C53_axes_round : forall d S th, 0 < th -> asymmetry d S < th ->
  let h := propagate_sigma ROps d S th true in
  sh_cos h ^ 2 + sh_sin h ^ 2 = 1 /\
  Rabs (turned_x (sh_cos h) (sh_sin h) (sh_11 h) (sh_33 h) - var_x d S) <= sqrt th / 2 /\
  Rabs (turned_y (sh_cos h) (sh_sin h) (sh_11 h) (sh_33 h) - var_y d S) <= sqrt th / 2 /\
  Rabs (turned_xy (sh_cos h) (sh_sin h) (sh_11 h) (sh_33 h) - cov_xy d S) <= sqrt th / 2.
Proof.
  intros d S th Hth H h. destruct (round_branch d S th Hth H) as (E1 & E2 & E3). fold h in E1, E2, E3.
  split; [exact E3|]. unfold turned_x, turned_y, turned_xy. rewrite E1, E2.
  unfold asymmetry in H.
  assert (B : forall u, u ^ 2 <= th -> Rabs u <= sqrt th).
  { intros u Hu. rewrite <- sqrt_Rsqr_abs. apply sqrt_le_1_alt. rewrite Rsqr_pow2. exact Hu. }
  pose proof (pow2_ge_0 (var_x d S - var_y d S)). pose proof (pow2_ge_0 (cov_xy d S)).
  assert (B1 : Rabs (var_x d S - var_y d S) <= sqrt th) by (apply B; lra).
  assert (B2 : Rabs (2 * cov_xy d S) <= sqrt th).
  { apply B. replace ((2 * cov_xy d S) ^ 2) with (4 * cov_xy d S ^ 2) by ring. lra. }
  set (W := / 2 * (var_x d S + var_y d S)). split; [|split].
  - replace (sh_cos h ^ 2 * W + sh_sin h ^ 2 * W - var_x d S) with ((sh_cos h ^ 2 + sh_sin h ^ 2) * W - var_x d S) by ring.
    rewrite E3. replace (1 * W - var_x d S) with (- (var_x d S - var_y d S) * / 2) by (unfold W; field).
    rewrite Rabs_mult, Rabs_Ropp, (Rabs_right (/ 2)) by lra. lra.
  - replace (sh_sin h ^ 2 * W + sh_cos h ^ 2 * W - var_y d S) with ((sh_cos h ^ 2 + sh_sin h ^ 2) * W - var_y d S) by ring.
    rewrite E3. replace (1 * W - var_y d S) with ((var_x d S - var_y d S) * / 2) by (unfold W; field).
    rewrite Rabs_mult, (Rabs_right (/ 2)) by lra. lra.
  - replace (sh_cos h * sh_sin h * (W - W) - cov_xy d S) with (- (2 * cov_xy d S) * / 2) by field.
    rewrite Rabs_mult, Rabs_Ropp, (Rabs_right (/ 2)) by lra. lra.
Qed.
Print Assumptions C53_axes_round.

Lemma near_open : forall (f : R -> R) (P : R -> Prop) (S l : R), is_derive f S l -> open P -> P (f S) -> locally S (fun t => P (f t)).
Proof.
  intros f P S l D O H. assert (C : continuous f S) by (apply (ex_derive_continuous f); exists l; exact D).
  apply C. apply O. exact H.
Qed.

(* The reported derivatives are the derivatives of the axes and sizes along the beam. *)
Theorem C53_derivatives_partial : forall d S th, 0 < th -> th < asymmetry d S -> var_x d S <> var_y d S ->
  let h := fun t : R => propagate_sigma ROps d t th true in
  is_derive (fun t : R => sh_11 (h t)) S (sh_d11 (h S)) /\ is_derive (fun t : R => sh_33 (h t)) S (sh_d33 (h S)) /\
  is_derive (fun t : R => sh_cos (h t)) S (sh_dcos (h S)) /\
  (th <= Rabs (sh_sin (h S)) \/ cov_xy d S = 0 -> is_derive (fun t : R => sh_sin (h t)) S (sh_dsin (h S))).
Proof.
  intros d S th Hth HT Hne h.
  set (g := fun t : R => var_x d t - var_y d t). set (w := fun t : R => var_x d t + var_y d t).
  set (s := mysign ROps (g S)).
  assert (Hs : s * s = 1) by apply mysign_sq.
  assert (HgS : g S <> 0) by (unfold g; lra).
  assert (Hpos : 0 < s * g S) by (unfold s; rewrite mysign_abs; now apply Rabs_pos_lt).
  set (g' := 2 * (sg_12 d - sg_34 d) + 2 * S * (sg_22 d - sg_44 d)).
  set (w' := 2 * (sg_12 d + sg_34 d) + 2 * S * (sg_22 d + sg_44 d)).
  pose proof (cov_d d S) as Hf. set (f' := sg_14 d + sg_23 d + 2 * sg_24 d * S) in Hf.
  assert (Hg : is_derive g S g').
  { replace g' with ((2 * sg_12 d + 2 * S * sg_22 d) - (2 * sg_34 d + 2 * S * sg_44 d)) by (unfold g'; ring).
    apply (is_derive_minus (var_x d) (var_y d)); [apply var_x_d|apply var_y_d]. }
  assert (Hw : is_derive w S w').
  { replace w' with ((2 * sg_12 d + 2 * S * sg_22 d) + (2 * sg_34 d + 2 * S * sg_44 d)) by (unfold w'; ring).
    apply (is_derive_plus (var_x d) (var_y d)); [apply var_x_d|apply var_y_d]. }
  assert (HA : is_derive (asymmetry d) S (2 * g S * g' + 8 * cov_xy d S * f')).
  { exact (T_d (cov_xy d) g S f' g' Hf Hg). }
  assert (N1 : locally S (fun t : R => th < asymmetry d t)).
  { apply (near_open _ (fun u => th < u) S _ HA); [apply open_gt|exact HT]. }
  assert (N2 : locally S (fun t : R => mysign ROps (g t) = s)).
  { destruct (Rlt_le_dec (g S) 0) as [L|L].
    - eapply filter_imp; [|apply (near_open _ (fun u => u < 0) S _ Hg); [apply open_lt|exact L]].
      intros t Ht. cbn beta in Ht. unfold s. now rewrite !mysign_neg.
    - eapply filter_imp; [|apply (near_open _ (fun u => 0 < u) S _ Hg); [apply open_gt|lra]].
      intros t Ht. cbn beta in Ht. unfold s. rewrite !mysign_pos by lra. reflexivity. }
  assert (X : locally S (fun t : R => th < asymmetry d t /\ mysign ROps (g t) = s)) by (apply filter_and; auto).
  destruct (hats_d (cov_xy d) g w S f' g' w' Hf Hg Hw s Hpos) as (D1 & D2).
  pose proof (cos_d (cov_xy d) g S f' g' Hf Hg s Hpos) as D3.
  assert (HS : h S = h S) by reflexivity. unfold h in HS at 2. rewrite regular_branch in HS by (right; lra). cbv zeta in HS.
  fold (g S) in HS. fold (w S) in HS. fold s in HS. fold g' in HS. fold w' in HS. fold f' in HS.
  split; [|split; [|split]].
  - rewrite HS. cbn [sh_d11]. eapply is_derive_ext_loc; [|exact D1].
    eapply filter_imp; [|exact X]. intros t (A & B). unfold h. rewrite regular_branch by (right; lra).
    cbn [sh_11]. fold (g t). rewrite B. reflexivity.
  - rewrite HS. cbn [sh_d33]. eapply is_derive_ext_loc; [|exact D2].
    eapply filter_imp; [|exact X]. intros t (A & B). unfold h. rewrite regular_branch by (right; lra).
    cbn [sh_33]. fold (g t). rewrite B. reflexivity.
  - rewrite HS. cbn [sh_dcos]. eapply is_derive_ext_loc; [|exact D3].
    eapply filter_imp; [|exact X]. intros t (A & B). unfold h. rewrite regular_branch by (right; lra).
    cbn [sh_cos]. fold (g t). rewrite B. reflexivity.
  - intros Hsi. destruct (Req_dec (cov_xy d S) 0) as [Z|Z].
    + pose proof (sin_d0 (cov_xy d) g S f' g' Hf Hg s Hs Hpos Z) as D4.
      assert (Er : sqrt (asymmetry d S) = s * g S).
      { rewrite <- (sqrt_pow2 (s * g S)) by lra. f_equal. unfold asymmetry. rewrite Z.
        replace ((s * g S) ^ 2) with ((s * s) * g S ^ 2) by ring. rewrite Hs. unfold g. ring. }
      rewrite HS. cbn [sh_dsin]. rewrite Z, Er.
      replace (s * g S / (s * g S)) with 1 by (field; split; [exact HgS|nra]).
      rewrite Rminus_diag_eq, Rmult_0_r, sqrt_0, Rmult_0_r, Rabs_R0 by reflexivity.
      replace (Rltb 0 th && true) with true by (symmetry; rewrite andb_true_r; now apply Rltb_true).
      eapply is_derive_ext_loc; [|exact D4].
      eapply filter_imp; [|exact X]. intros t (A & B). unfold h. rewrite regular_branch by (right; lra).
      cbn [sh_sin]. fold (g t).
      assert (HTt : 0 < g t * g t + 4 * cov_xy d t * cov_xy d t) by (unfold g; rewrite asym_R; lra).
      pose proof (co_si (cov_xy d t) (g t) HTt) as CS. pose proof (co_pos (cov_xy d t) (g t) HTt) as CP.
      replace (g t * g t + 4 * cov_xy d t * cov_xy d t) with (asymmetry d t) in CS, CP by (unfold g; symmetry; apply asym_R).
      rewrite B in *.
      change (g t ^ 2 + 4 * cov_xy d t ^ 2) with (asymmetry d t).
      rewrite <- CS. match goal with |- ?u = ?v => change (@eq R u v) end. field. lra.
    + destruct Hsi as [Hsi|]; [|contradiction].
      rewrite HS in Hsi. cbn [sh_sin] in Hsi.
      rewrite HS. cbn [sh_dsin].
      set (m := mysign ROps (cov_xy d S)) in *.
      assert (N3 : locally S (fun t : R => mysign ROps (cov_xy d t) = m)).
      { destruct (Rlt_le_dec (cov_xy d S) 0) as [L|L].
        - eapply filter_imp; [|apply (near_open _ (fun u => u < 0) S _ Hf); [apply open_lt|exact L]].
          intros t Ht. cbn beta in Ht. unfold m. now rewrite !mysign_neg.
        - eapply filter_imp; [|apply (near_open _ (fun u => 0 < u) S _ Hf); [apply open_gt|lra]].
          intros t Ht. cbn beta in Ht. unfold m. rewrite !mysign_pos by lra. reflexivity. }
      replace (Rltb (Rabs (s * m * sqrt (/ 2 * (1 - s * g S / sqrt (asymmetry d S))))) th && true) with false
        by (symmetry; apply andb_false_iff; left; now apply Rltb_false).
      eapply is_derive_ext_loc; [|apply (sin_d (cov_xy d) g S f' g' Hf Hg s Hs Hpos m)].
      * eapply filter_imp; [|exact (filter_and _ _ X N3)]. intros t ((A & B) & C). unfold h. rewrite regular_branch by (right; lra).
        cbn [sh_sin]. fold (g t). rewrite B, C. reflexivity.
      * apply mysign_sq.
      * intros E. change (g S ^ 2 + 4 * cov_xy d S ^ 2) with (asymmetry d S) in E. rewrite E in Hsi.
        rewrite Rminus_diag_eq, Rmult_0_r, sqrt_0, Rmult_0_r, Rabs_R0 in Hsi by reflexivity. lra.
Qed.
Print Assumptions C53_derivatives_partial.

Example C53_case : let d := mkSigmas 4 (1/10) 1 0 1 0 0 1 0 1 in
  1/1000 < asymmetry d 1 /\ var_x d 1 <> var_y d 1 /\ cov_xy d 1 <> 0.
Proof. cbv zeta. unfold asymmetry, var_x, var_y, cov_xy. cbn [sg_11 sg_12 sg_13 sg_14 sg_22 sg_23 sg_24 sg_33 sg_34 sg_44]. lra. Qed.
