(* Theorems for C49: elements with default settings and switched-off elements. *)
From Coq Require Import ZArith Reals Lra Lia Bool.
From Coquelicot Require Import Coquelicot.
From Verif Require Import Num Particle Energy Interp BeamFields Elements Defaults Track MapsR OpticsSpec OpticsProofs MultipoleProofs
  RfSpec RfProofs PropertiesOptics.
From Coq Require Import List.
Import ListNotations.
Local Open Scope R_scope.

Lemma add_energy_0 : forall p, consistent p -> add_to_energy ROps 0 p = p.
Proof.
  intros p (Hg & P & E & Hd).
  assert (Hm : p_mass0 p < E + 0).
  { pose proof Hg as (Hp0 & Hm0 & _). destruct Hd as [HP HE _ _ _ _].
    destruct (shell _ _ _ HP Hm0 HE) as (HEp & HE2). nra. }
  destruct (add_energy_ok p P E 0 Hg Hd Hm) as (A & B & C). rewrite Rplus_0_r in A.
  assert (EP : sqrt (E ^ 2 - p_mass0 p ^ 2) = P).
  { pose proof Hg as (Hp0 & Hm0 & _). destruct Hd as [HP HE _ _ _ _].
    destruct (shell _ _ _ HP Hm0 HE) as (HEp & HE2). rewrite HE2.
    replace (P ^ 2 + p_mass0 p ^ 2 - p_mass0 p ^ 2) with (P * P) by ring. apply sqrt_square. lra. }
  rewrite EP in A. cbv zeta in C. set (q := add_to_energy ROps 0 p) in *.
  destruct A as [_ _ A1 A2 A3 A4]. destruct Hd as [HP HE D1 D2 D3 D4].
  assert (R : p_rvv q = p_rvv p) by (rewrite A4, D4, C; reflexivity).
  assert (Hne : p_rvv p <> 0).
  { pose proof Hg as (Hp0 & Hm0 & _). destruct (energy0_pos p Hg) as (HE0 & _). destruct (shell _ _ _ HP Hm0 HE) as (HEp & _).
    rewrite D4. apply Rgt_not_eq. apply Rdiv_lt_0_compat; apply Rdiv_lt_0_compat; auto. }
  assert (Z : p_zeta q = p_zeta p).
  { rewrite R in B. apply (f_equal (fun u => u * p_rvv p)) in B.
    unfold Rdiv in B. rewrite !Rmult_assoc, Rinv_l, !Rmult_1_r in B by auto. exact B. }
  assert (E1 : p_psigma q = p_psigma p) by (rewrite A2, D2, C; reflexivity).
  assert (E2 : p_delta q = p_delta p) by (rewrite A1, D1, C; reflexivity).
  assert (E3 : p_rpp q = p_rpp p) by (rewrite A3, D3, C; reflexivity).
  unfold same_elsewhere in C. rewrite Z, E1, E2, E3, R in C. rewrite C. destruct p; reflexivity.
Qed.

Lemma nth_repeat0 : forall n i, nth i (repeat 0 n) 0 = 0.
Proof. induction n; destruct i; cbn; auto. Qed.

Lemma loop_0 : forall n x y k, multipole_loop ROps (repeat 0 n) x y k 0 0 = (0, 0).
Proof.
  intros n x y k. induction k; [reflexivity|]. cbn [multipole_loop]. unfold bal_at. rops. rewrite !nth_repeat0.
  replace (0 + (0 * x - 0 * y)) with 0 by ring. replace (0 + (0 * y + 0 * x)) with 0 by ring. exact IHk.
Qed.

(* inside the ellipse touching the global aperture box *)
Definition in_ellipse (c : config R) (p : particle R) : Prop :=
  (p_x p) ^ 2 * (c_y_limit c) ^ 2 + (p_y p) ^ 2 * (c_x_limit c) ^ 2 <= (c_x_limit c) ^ 2 * (c_y_limit c) ^ 2.

(* conditions under which a default element is passed unchanged: none but for the
   apertures, which have the shape of the global aperture, and the profile whose
   parameter is left unset *)
Definition passes (c : config R) (k : kind R) (p : particle R) : Prop :=
  match k with
  | KLimitEllipse | KLimitRectEllipse => in_ellipse c p
  | KSCQGauss msd _ => 0 < msd
  | _ => True
  end.

Theorem C49_defaults_partial : forall c k p outs,
  consistent p -> p_state p = 1%Z -> in_box c p -> passes c k p ->
  c_sc c = MEnabled \/ c_sc c = MUndef ->
  k <> KDipoleEdge R ->
  dispatch ROps c (cleared ROps c k) p outs = Some (p, outs, 0%Z).
Proof.
  intros c k p outs Hc Hs Hb Hp Hm Hk.
  assert (G : track_limit_global ROps c p = p) by (apply limit_global_in; auto).
  assert (U : update_state_if_not_lost 1 p = p)
    by (unfold update_state_if_not_lost; rewrite Hs; destruct p; cbn in *; subst; reflexivity).
  destruct Hb as (Bx & By). apply Rabs_def2 in Bx. apply Rabs_def2 in By.
  destruct k; cbn [cleared dispatch]; try congruence.
  - assert (E : track_drift ROps 0 p = p) by (unfold track_drift; pext p; ring).
    rops. rewrite E, G. destruct (drift_check _ _ _); reflexivity.
  - assert (E : track_drift_exact ROps 0 p = p) by (unfold track_drift_exact; pext p; unfold Rdiv; ring).
    rops. rewrite E, G. destruct (drift_check _ _ _); reflexivity.
  - unfold track_multipole. rops. unfold bal_at. rops. rewrite !nth_repeat0, loop_0.
    replace (Rltb 0 0) with false by (symmetry; apply Rltb_false; lra). cbn [orb fst snd].
    do 2 f_equal. f_equal. pext p; ring.
  - rops. rewrite track_rf_is.
    assert (Z : forall f : nat -> R, (forall n, f n = 0) -> forall m, sum_n f m = 0).
    { intros f Hf m. induction m; [rewrite sum_O; auto|]. rewrite sum_Sn, IHm, Hf. unfold plus; cbn; ring. }
    rewrite !Z by (intros n; unfold tx, ty, tt_; cbv zeta; rewrite !nth_repeat0; ring).
    match goal with |- context [add_to_energy ROps ?d ?q] => replace d with 0 by ring; replace q with p end.
    + now rewrite add_energy_0.
    + pext p; ring.
  - unfold track_cavity. rops.
    match goal with |- context [add_to_energy ROps ?d ?q] => replace d with 0 by ring end.
    now rewrite add_energy_0.
  - do 2 f_equal. f_equal. unfold track_xyshift. pext p; ring.
  - do 2 f_equal. f_equal. unfold track_srotation. pext p; ring.
  - reflexivity.
  - unfold track_limit_rect. rops.
    replace (Rleb (- c_x_limit c) (p_x p)) with true by (symmetry; apply Rleb_true; lra).
    replace (Rleb (p_x p) (c_x_limit c)) with true by (symmetry; apply Rleb_true; lra).
    replace (Rleb (- c_y_limit c) (p_y p)) with true by (symmetry; apply Rleb_true; lra).
    replace (Rleb (p_y p) (c_y_limit c)) with true by (symmetry; apply Rleb_true; lra).
    cbn [andb b2z]. now rewrite U.
  - unfold track_limit_ellipse. rops. unfold passes, in_ellipse in Hp.
    match goal with |- context [Rleb ?a ?b] => replace (Rleb a b) with true by (symmetry; apply Rleb_true; nra) end.
    cbn [b2z]. now rewrite U.
  - unfold track_limit_rect_ellipse. rops. unfold passes, in_ellipse in Hp.
    replace (Rleb (- c_x_limit c) (p_x p)) with true by (symmetry; apply Rleb_true; lra).
    replace (Rleb (p_x p) (c_x_limit c)) with true by (symmetry; apply Rleb_true; lra).
    replace (Rleb (- c_y_limit c) (p_y p)) with true by (symmetry; apply Rleb_true; lra).
    replace (Rleb (p_y p) (c_y_limit c)) with true by (symmetry; apply Rleb_true; lra).
    match goal with |- context [Rleb ?a ?b] => replace (Rleb a b) with true by (symmetry; apply Rleb_true; nra) end.
    cbn [andb b2z]. now rewrite U.
  - assert (K : track_sc_coasting ROps (mkSCCoasting 0 1 1 1 0 0 0 (Rdec 1 (-10)) 1) p = Some p).
    { unfold track_sc_coasting, gauss_fields. cbn [sc_sigma_x sc_sigma_y sc_min_sigma_diff sc_number_of_particles sc_length sc_circumference sc_x_co sc_y_co]. rops.
      replace (Rltb (Rabs (1 - 1)) (Rdec 1 (-10))) with true.
      - cbn [obind]. unfold add_kick. f_equal. unfold Rdiv. destruct p; pupdate; rops; f_equal; ring.
      - symmetry. apply Rltb_true. rewrite Rminus_diag_eq, Rabs_R0 by reflexivity. unfold Rdec.
        apply Rmult_lt_0_compat; [lra|]. apply powerRZ_lt; lra. }
    rops. unfold run_map. destruct Hm as [->| ->]; rewrite K; reflexivity.
  - assert (K : track_sc_qgauss ROps (mkSCQGauss 0 1 1 1 0 0 0 min_sigma_diff 1 cq 1) p = Some p).
    { unfold track_sc_qgauss, gauss_fields. cbn [sq_sigma_x sq_sigma_y sq_min_sigma_diff sq_number_of_particles sq_length sq_x_co sq_y_co sq_bunchlength_rms sq_q_param sq_cq]. rops.
      replace (Rltb (Rabs (1 - 1)) min_sigma_diff) with true.
      - cbn [obind]. unfold add_kick. f_equal. unfold Rdiv. destruct p; pupdate; rops; f_equal; ring.
      - symmetry. apply Rltb_true. rewrite Rminus_diag_eq, Rabs_R0 by reflexivity. exact Hp. }
    rops. unfold run_map. destruct Hm as [->| ->]; rewrite K; reflexivity.
  - assert (K : track_sc_interpolated ROps (mkSCInterpolated 0 1 1 0 0 0 None 1 (Rdec 1 (-10)) 1) p = Some p).
    { unfold track_sc_interpolated, gauss_fields. cbn [si_sigma_x si_sigma_y si_min_sigma_diff si_number_of_particles si_length si_x_co si_y_co si_data si_fallback]. rops.
      cbn [obind].
      replace (Rltb (Rabs (1 - 1)) (Rdec 1 (-10))) with true.
      - cbn [obind]. unfold add_kick. f_equal. unfold Rdiv. destruct p; pupdate; rops; f_equal; ring.
      - symmetry. apply Rltb_true. rewrite Rminus_diag_eq, Rabs_R0 by reflexivity. unfold Rdec.
        apply Rmult_lt_0_compat; [lra|]. apply powerRZ_lt; lra. }
    rops. unfold run_map. destruct Hm as [Em| Em]; rewrite Em; rewrite K; reflexivity.
Qed.
Print Assumptions C49_defaults_partial.

Example C49_case : consistent sample /\ p_state sample = 1%Z /\ in_box wide sample /\ in_ellipse wide sample /\ c_sc wide = MEnabled.
Proof.
  split; [|split; [reflexivity|split; [|split; [|reflexivity]]]].
  - destruct sample_ok as (A & B). split; [exact A|]. exists (15/2), (17/2). exact B.
  - unfold in_box. cbn [c_x_limit c_y_limit wide p_x p_y sample]. split; apply Rabs_def1; lra.
  - unfold in_ellipse. cbn [c_x_limit c_y_limit wide p_x p_y sample]. lra.
Qed.

(* A default dipole edge deflects the particle: its vertical coefficient is 1, not 0. *)
Theorem C49_dipole_edge_refuted : exists c p outs q, consistent p /\ p_state p = 1%Z /\ in_box c p /\
  dispatch ROps c (cleared ROps c (KDipoleEdge R)) p outs = Some (q, outs, 0%Z) /\ p_py q <> p_py p.
Proof.
  exists wide, sample, [], (track_dipedge ROps 0 1 sample).
  destruct C49_case as (A & B & C & _). split; [exact A|]. split; [exact B|]. split; [exact C|].
  split; [reflexivity|]. unfold track_dipedge. pfields. rops. cbn [p_py p_y sample]. lra.
Qed.
Print Assumptions C49_dipole_edge_refuted.

(* Beam-beam elements whose enabled flag is 0 and maps skipped at build time change nothing,
   for every number type. *)
Theorem C49_switched_off : forall T (N : NumOps T) c p outs,
  (nltb N (nofZ N 0) (nofZ N 0) = false ->
   (forall b, b4_enabled b = nofZ N 0 -> c_bb4d c <> MDisabled ->
      dispatch N c (BBeamBeam4D b) p outs = Some (p, outs, 0%Z)) /\
   (forall b, b6_enabled b = nofZ N 0 -> c_bb6d c <> MDisabled ->
      dispatch N c (BBeamBeam6D b) p outs = Some (p, outs, 0%Z))) /\
  (c_bb4d c = MSkip -> forall b, dispatch N c (BBeamBeam4D b) p outs = Some (p, outs, 0%Z)) /\
  (c_bb6d c = MSkip -> forall b, dispatch N c (BBeamBeam6D b) p outs = Some (p, outs, 0%Z)) /\
  (c_tricub c = MSkip -> forall t, dispatch N c (BTriCub t) p outs = Some (p, outs, 0%Z)) /\
  (c_sc c = MSkip -> forall s, dispatch N c (BSCCoasting s) p outs = Some (p, outs, 0%Z)) /\
  (c_sc c = MSkip -> forall s, dispatch N c (BSCQGauss s) p outs = Some (p, outs, 0%Z)).
Proof.
  intros T N c p outs. split; [intros H0; split|].
  - intros b Hb Hc. cbn [dispatch]. unfold run_map, track_bb4d. rewrite Hb, H0.
    destruct (c_bb4d c); try reflexivity. congruence.
  - intros b Hb Hc. cbn [dispatch]. unfold run_map, track_bb6d. rewrite Hb, H0.
    destruct (c_bb6d c); try reflexivity. congruence.
  - repeat split; intros H ?; cbn [dispatch]; unfold run_map; rewrite H; reflexivity.
Qed.
Print Assumptions C49_switched_off.

(* Skipping space charge does not skip the element with an interpolated profile: the
   particle is lost. *)
Theorem C49_skip_profile_refuted : forall T (N : NumOps T) c p outs s, c_sc c = MSkip -> p_state p = 1%Z ->
  exists q, dispatch N c (BSCInterpolated s) p outs = Some (q, outs, (-1)%Z) /\ p_state q = 0%Z.
Proof.
  intros T N c p outs s H Hs. cbn [dispatch]. rewrite H. eexists. split; [reflexivity|].
  reflexivity.
Qed.
Print Assumptions C49_skip_profile_refuted.

(* The enabled flag of space-charge elements is not looked at: a switched-off element still
   kicks the particle. *)
Theorem C49_space_charge_flag_refuted : exists c s p outs q, sc_enabled s = 0%Z /\ consistent p /\
  p_state p = 1%Z /\ in_box c p /\
  dispatch ROps c (BSCCoasting s) p outs = Some (q, outs, 0%Z) /\ p_px q <> p_px p.
Proof.
  set (s := mkSCCoasting 1 1 1 1 1 0 0 1 0).
  assert (K : exists q, track_sc_coasting ROps s sample = Some q /\ p_px q <> p_px sample).
  { unfold track_sc_coasting, gauss_fields, s.
    cbn [sc_sigma_x sc_sigma_y sc_min_sigma_diff sc_number_of_particles sc_length sc_circumference sc_x_co sc_y_co]. rops.
    replace (Rltb (Rabs (1 - 1)) 1) with true
      by (symmetry; apply Rltb_true; rewrite Rminus_diag_eq, Rabs_R0 by reflexivity; lra).
    cbn [obind]. eexists. split; [reflexivity|].
    unfold add_kick, field_round. rops. cbn [p_q0 p_beta0 p_p0c p_chi p_charge_ratio p_rvv p_x p_y p_px set_px set_py fst snd sample].
    set (r2 := (1 / 10 - 0 - 0) * (1 / 10 - 0 - 0) + (- 1 / 5 - 0 - 0) * (- 1 / 5 - 0 - 0)).
    assert (Hr : r2 = 5 / 100) by (unfold r2; lra).
    assert (Hc : 0 < Rdec 1602176634 (-28)) by (unfold Rdec; apply Rmult_lt_0_compat; [lra|apply powerRZ_lt; lra]).
    assert (He : 0 < Rdec 8854187817620 (-24)) by (unfold Rdec; apply Rmult_lt_0_compat; [lra|apply powerRZ_lt; lra]).
    assert (Hsm : Rdec 1 (-20) < r2).
    { rewrite Hr. unfold Rdec. change (powerRZ 10 (-20)) with (/ (10 ^ 20)).
      apply Rmult_lt_reg_r with (10 ^ 20); [apply pow_lt; lra|].
      rewrite Rmult_assoc, Rinv_l by (apply pow_nonzero; lra). cbn [pow]. lra. }
    replace (Rltb r2 (Rdec 1 (-20))) with false by (symmetry; apply Rltb_false; lra).
    rewrite Hr.
    match goal with |- 1 / 100 + ?k <> _ => assert (k > 0); [|lra] end.
    assert (Hh : half ROps = 5 / 10) by (unfold half; rops; unfold Rdec; change (powerRZ 10 (-1)) with (/ (10 * 1)); field).
    rewrite Hh.
    assert (Hx : exp (- (5 / 10) * (5 / 100) / (half ROps * (1 + 1) * (half ROps * (1 + 1)))) < 1).
    { rewrite Hh.
      replace (- (5 / 10) * (5 / 100) / (5 / 10 * (1 + 1) * (5 / 10 * (1 + 1)))) with (- (25 / 1000)) by field.
      pose proof (exp_increasing (- (25 / 1000)) 0 ltac:(lra)) as G. rewrite exp_0 in G. exact G. }
    rewrite Hh in Hx.
    pose proof PI_RGT_0 as Hpi.
    set (ch := Rdec 1602176634 (-28)) in *. set (e0 := Rdec 8854187817620 (-24)) in *. set (pi_ := PI) in *. clearbody ch e0 pi_.
    apply Rmult_gt_0_compat.
    - apply Rdiv_lt_0_compat; [|repeat apply Rmult_lt_0_compat; lra].
      replace (1 * 1 * 1 * 1 * (ch * 1) * (ch * 1) * (1 - 3 / 5 * (3 / 5))) with (ch * ch * (16 / 25)) by field.
      repeat apply Rmult_lt_0_compat; lra.
    - apply Rmult_gt_0_compat; [|lra].
      apply Rdiv_lt_0_compat; [lra|]. repeat apply Rmult_lt_0_compat; lra. }
  destruct K as (q & K1 & K2). destruct C49_case as (A & B & C & _ & D).
  exists wide, s, sample, [], q. split; [reflexivity|]. split; [exact A|]. split; [exact B|]. split; [exact C|].
  split; [|exact K2]. cbn [dispatch]. unfold run_map. rewrite D, K1. reflexivity.
Qed.
Print Assumptions C49_space_charge_flag_refuted.
