(* Theorems for C30-C33: drifts, energy, multipoles, rotations and shifts over the reals. *)
From Coq Require Import ZArith Reals Lra Lia Bool List.
From Coquelicot Require Import Coquelicot.
From Verif Require Import Num Particle Energy Elements Track TrackSpec MapsR OpticsSpec OpticsProofs MultipoleProofs EnergyRun.
Import ListNotations.
Local Open Scope R_scope.

(* A particle used in the examples: mass 4, reference momentum 3 (energy 5), momentum 15/2
   (energy 17/2), off axis, active. *)
Definition sample : particle R :=
  mkParticle 1 4 (3/5) (5/4) 3 0 (1/10) (-1/5) (1/100) (1/50) (1/7) (35/18) (3/2) (2/5) (25/17) 1 1 7 0 0 1.

Lemma sqrt_is : forall a b, 0 <= b -> a = b * b -> sqrt a = b.
Proof. intros a b Hb ->. apply sqrt_square; exact Hb. Qed.

Lemma sample_energy0 : energy0 sample = 5.
Proof. unfold energy0. cbn [p_p0c p_mass0 sample]. apply sqrt_is; lra. Qed.

Lemma sample_ok : good_reference sample /\ describes sample (15/2) (17/2).
Proof.
  split.
  - unfold good_reference. rewrite sample_energy0. cbn [p_p0c p_mass0 p_beta0 sample]. lra.
  - constructor; rewrite ?sample_energy0; cbn [p_p0c p_mass0 p_beta0 p_delta p_psigma p_rpp p_rvv sample]; try lra.
    symmetry. apply sqrt_is; lra.
Qed.

Definition wide : config R := mkConfig AAlways None 1 1 MEnabled MEnabled MEnabled MEnabled.

(* ------------------------------------------------------------------ *)
(* C30 *)
Theorem C30_compose : forall l1 l2 p,
  track_drift ROps l2 (track_drift ROps l1 p) = track_drift ROps (l1 + l2) p /\
  track_drift_exact ROps l2 (track_drift_exact ROps l1 p) = track_drift_exact ROps (l1 + l2) p.
Proof. intros. split; [apply drift_compose|apply exact_compose]. Qed.
Print Assumptions C30_compose.

Theorem C30_inverse : forall l p,
  track_drift ROps (- l) (track_drift ROps l p) = p /\
  track_drift_exact ROps (- l) (track_drift_exact ROps l p) = p.
Proof. intros. split; [apply drift_inverse|apply exact_inverse]. Qed.
Print Assumptions C30_inverse.

(* The motion is free: momenta and energy are kept and the position moves along a straight
   line by the slopes times the length; the exact drift has the slopes px/pz, py/pz. *)
Theorem C30_straight : forall l p,
  let q := track_drift ROps l p in
  p_x q = p_x p + l * (p_px p * p_rpp p) /\ p_y q = p_y p + l * (p_py p * p_rpp p) /\
  p_s q = p_s p + l /\
  p_zeta q = p_zeta p + l * (p_rvv p - (1 + ((p_px p * p_rpp p) ^ 2 + (p_py p * p_rpp p) ^ 2) / 2)) /\
  p_px q = p_px p /\ p_py q = p_py p /\ p_delta q = p_delta p.
Proof. intros l p q. unfold q, track_drift. pfields. rops. repeat split; field. Qed.
Print Assumptions C30_straight.

Theorem C30_straight_exact : forall l p, p_px p ^ 2 + p_py p ^ 2 < (1 + p_delta p) ^ 2 -> 
  let q := track_drift_exact ROps l p in
  exists pz, 0 < pz /\ p_px p ^ 2 + p_py p ^ 2 + pz ^ 2 = (1 + p_delta p) ^ 2 /\
  p_x q = p_x p + l * (p_px p / pz) /\ p_y q = p_y p + l * (p_py p / pz) /\
  p_s q = p_s p + l /\ p_zeta q = p_zeta p + l * (p_rvv p - (1 + p_delta p) / pz) /\
  p_px q = p_px p /\ p_py q = p_py p /\ p_delta q = p_delta p.
Proof.
  intros l p H q. exists (sqrt ((1 + p_delta p) ^ 2 - (p_px p ^ 2 + p_py p ^ 2))).
  assert (H0 : 0 < (1 + p_delta p) ^ 2 - (p_px p ^ 2 + p_py p ^ 2)) by lra.
  pose proof (sqrt_lt_R0 _ H0) as Hs.
  split; [exact Hs|]. split; [rewrite pow2_sqrt; lra|].
  assert (E : (p_delta p + 1) * (p_delta p + 1) - (p_px p * p_px p + p_py p * p_py p) =
          (1 + p_delta p) ^ 2 - (p_px p ^ 2 + p_py p ^ 2)) by ring.
  unfold q, track_drift_exact. pfields. rops. rewrite E. repeat split; field; lra.
Qed.
Print Assumptions C30_straight_exact.

(* The particle takes the time a particle of its velocity P / E needs for the way it goes: the
   straight line from the old to the new position in the exact drift, the length of this line
   to second order in the slopes in the expanded drift. *)
Theorem C30_time_exact : forall l p P E, good_reference p -> describes p P E -> 0 <= l ->
  p_px p ^ 2 + p_py p ^ 2 < (1 + p_delta p) ^ 2 ->
  let q := track_drift_exact ROps l p in
  arrival q = arrival p + sqrt ((p_x q - p_x p) ^ 2 + (p_y q - p_y p) ^ 2 + l ^ 2) / (P / E).
Proof.
  intros l p P E Hg Hd Hl H q.
  destruct (C30_straight_exact l p H) as (pz & Hz & S & X & Y & Hs & Z & _). fold q in X, Y, Hs, Z.
  destruct Hg as (G1 & G2 & G3). destruct Hd as [M Sh Dd _ _ Rv].
  assert (E0 : 0 < energy0 p) by (apply sqrt_lt_R0; nra).
  assert (EE : 0 < E) by (rewrite Sh; apply sqrt_lt_R0; nra).
  assert (O : 0 < 1 + p_delta p) by (rewrite Dd; replace (1 + (P - p_p0c p) / p_p0c p) with (P / p_p0c p) by (field; lra); apply Rdiv_lt_0_compat; lra).
  assert (W : sqrt ((p_x q - p_x p) ^ 2 + (p_y q - p_y p) ^ 2 + l ^ 2) = l * ((1 + p_delta p) / pz)).
  { apply sqrt_is.
    - apply Rmult_le_pos; [lra|]. apply Rlt_le, Rdiv_lt_0_compat; lra.
    - rewrite X, Y. replace (l * ((1 + p_delta p) / pz) * (l * ((1 + p_delta p) / pz))) with (l ^ 2 * (1 + p_delta p) ^ 2 / pz ^ 2) by (field; lra).
      rewrite <- S. field. lra. }
  rewrite W. unfold arrival.
  assert (Eb : p_beta0 q = p_beta0 p) by reflexivity. assert (Er : p_rvv q = p_rvv p) by reflexivity.
  rewrite Eb, Er, Hs, Z, G3, Rv. field. repeat split; lra.
Qed.
Print Assumptions C30_time_exact.

Theorem C30_time : forall l p P E, good_reference p -> describes p P E -> l <> 0 ->
  let q := track_drift ROps l p in
  arrival q = arrival p + l * (1 + (((p_x q - p_x p) / l) ^ 2 + ((p_y q - p_y p) / l) ^ 2) / 2) / (P / E).
Proof.
  intros l p P E Hg Hd Hl q.
  destruct Hg as (G1 & G2 & G3). destruct Hd as [M Sh _ _ _ Rv].
  assert (E0 : 0 < energy0 p) by (apply sqrt_lt_R0; nra).
  assert (EE : 0 < E) by (rewrite Sh; apply sqrt_lt_R0; nra).
  unfold arrival, q, track_drift. pfields. rops.
  rewrite G3, Rv. field. repeat split; lra.
Qed.
Print Assumptions C30_time.

Example C30_time_case : good_reference sample /\ describes sample (15/2) (17/2) /\
  p_px sample ^ 2 + p_py sample ^ 2 < (1 + p_delta sample) ^ 2.
Proof. destruct sample_ok as (A & B). split; [exact A|]. split; [exact B|]. cbn [p_px p_py p_delta sample]. lra. Qed.

Example C30_case : p_px sample ^ 2 + p_py sample ^ 2 < (1 + p_delta sample) ^ 2.
Proof. cbn [p_px p_py p_delta sample]. lra. Qed.

(* Splitting a drift of a lattice in two does not matter either with the aperture check
   after every drift: a particle that survives the long drift survives the first piece. *)
Theorem C30_lattice : forall c l1 l2 p outs q, 0 <= l1 -> 0 <= l2 -> p_state p = 1%Z ->
  in_box c p -> in_box c (track_drift ROps (l1 + l2) p) ->
  dispatch ROps c (BDrift (l1 + l2)) p outs = Some (q, outs, 0%Z) ->
  exists q1, dispatch ROps c (BDrift l1) p outs = Some (q1, outs, 0%Z) /\ p_state q1 = 1%Z /\
             dispatch ROps c (BDrift l2) q1 outs = Some (q, outs, 0%Z).
Proof. intros c l1 l2 p outs q H1 H2 H3 H4 H5. eapply drift_split_lattice; eauto. Qed.
Print Assumptions C30_lattice.

Example C30_lattice_case : in_box wide sample /\ in_box wide (track_drift ROps (10 + 15) sample).
Proof.
  unfold in_box, track_drift. pfields. rops. cbn [c_x_limit c_y_limit wide p_x p_y p_px p_py p_rpp sample].
  repeat split; apply Rabs_def1; lra.
Qed.

(* ------------------------------------------------------------------ *)
(* C31: adding energy dE to a particle of momentum P and energy E (per unit of mass ratio)
   gives the attributes of the particle of energy E + dE. *)
Theorem C31_add_energy : forall p P E dE, good_reference p -> describes p P E -> p_mass0 p < E + dE ->
  let q := add_to_energy ROps dE p in
  describes q (sqrt ((E + dE) ^ 2 - p_mass0 p ^ 2)) (E + dE) /\
  p_zeta q / p_rvv q = p_zeta p / p_rvv p /\ same_elsewhere p q.
Proof. apply add_energy_ok. Qed.
Print Assumptions C31_add_energy.

Theorem C31_set_delta : forall p d, good_reference p -> 0 < 1 + d ->
  let q := update_delta ROps d p in
  let P := p_p0c p * (1 + d) in
  describes q P (sqrt (P ^ 2 + p_mass0 p ^ 2)) /\ p_delta q = d /\ p_zeta q = p_zeta p /\ same_elsewhere p q.
Proof. apply update_delta_ok. Qed.
Print Assumptions C31_set_delta.

(* The attributes determine momentum and energy, rpp is 1/(1+delta) and rvv is beta/beta0. *)
Theorem C31_consistent : forall p P E, good_reference p -> describes p P E ->
  p_rpp p = 1 / (1 + p_delta p) /\ p_rvv p = (P / E) / p_beta0 p /\
  (forall P' E', describes p P' E' -> P' = P /\ E' = E).
Proof.
  intros p P E Hg Hd. split; [|split].
  - rewrite (d_rpp _ _ _ Hd), (d_delta _ _ _ Hd). destruct Hg as (H & _). pose proof (d_momentum _ _ _ Hd). field. lra.
  - rewrite (d_rvv _ _ _ Hd). destruct Hg as (_ & _ & ->). reflexivity.
  - intros P' E' H. eapply describes_fun; eauto.
Qed.
Print Assumptions C31_consistent.

Example C31_case : good_reference sample /\ describes sample (15/2) (17/2) /\ p_mass0 sample < 17/2 + (-3).
Proof. destruct sample_ok. cbn [p_mass0 sample]. split; auto. split; auto. lra. Qed.

(* The energy reported by the API is E times the mass ratio; it grows by dE times the mass
   ratio, i.e. by dE for particles of the reference species' mass. *)
Theorem C31_reported_energy_partial : forall p P E dE, good_reference p -> describes p P E -> p_mass0 p < E + dE ->
  p_chi p = p_charge_ratio p -> p_chi p <> 0 ->
  get_energy ROps p = E /\ get_energy ROps (add_to_energy ROps dE p) = get_energy ROps p + dE.
Proof.
  intros p P E dE Hg Hd Hm Hc H0.
  destruct (add_energy_ok p P E dE Hg Hd Hm) as (A & _ & B). cbv zeta in A, B.
  assert (R1 : get_mass_ratio ROps p = 1) by (unfold get_mass_ratio; rops; rewrite Hc in *; field; auto).
  assert (R2 : get_mass_ratio ROps (add_to_energy ROps dE p) = 1) by (rewrite B; exact R1).
  assert (Hg2 : good_reference (add_to_energy ROps dE p)) by (rewrite B; exact Hg).
  rewrite (get_energy_ok p P E Hg Hd), (get_energy_ok _ _ _ Hg2 A), R1, R2. split; ring.
Qed.
Print Assumptions C31_reported_energy_partial.

(* For other mass ratios the reported energy does not grow by dE. *)
Theorem C31_mass_ratio_refuted : exists p P E dE, good_reference p /\ describes p P E /\ p_mass0 p < E + dE /\
  0 < p_chi p /\ get_energy ROps (add_to_energy ROps dE p) <> get_energy ROps p + dE.
Proof.
  set (p := set_chi (1/2) sample).
  assert (Hg : good_reference p) by exact (proj1 sample_ok).
  assert (Hd : describes p (15/2) (17/2)) by (destruct sample_ok as (_ & [D1 D2 D3 D4 D5 D6]); constructor; assumption).
  exists p, (15/2), (17/2), 1. split; [exact Hg|]. split; [exact Hd|].
  assert (Hm : p_mass0 p < 17/2 + 1) by (cbn; lra).
  split; [exact Hm|]. split; [cbn; lra|].
  destruct (add_energy_ok p _ _ 1 Hg Hd Hm) as (A & _ & B). cbv zeta in A, B.
  assert (R1 : get_mass_ratio ROps p = 2) by (unfold get_mass_ratio, p; pfields; rops; cbn [p_charge_ratio sample]; lra).
  assert (R2 : get_mass_ratio ROps (add_to_energy ROps 1 p) = 2) by (rewrite B; exact R1).
  assert (Hg2 : good_reference (add_to_energy ROps 1 p)) by (rewrite B; exact Hg).
  rewrite (get_energy_ok p _ _ Hg Hd), (get_energy_ok _ _ _ Hg2 A), R1, R2. lra.
Qed.
Print Assumptions C31_mass_ratio_refuted.

(* A cavity adds q V sin(phase of arrival) to the energy. *)
Theorem C31_cavity : forall p P E voltage frequency lag, good_reference p -> describes p P E ->
  let tau := p_zeta p / (p_beta0 p * p_rvv p) in
  let dE := p_q0 p * p_charge_ratio p * voltage * sin (PI * lag / 180 - 2 * PI * frequency * tau / 299792458) in
  p_mass0 p < E + dE ->
  let q := track_cavity ROps voltage frequency lag p in
  describes q (sqrt ((E + dE) ^ 2 - p_mass0 p ^ 2)) (E + dE) /\
  p_zeta q / p_rvv q = p_zeta p / p_rvv p /\ same_elsewhere p q.
Proof.
  intros p P E V f lag Hg Hd tau dE Hm q. unfold q, track_cavity. rops.
  assert (Eq : p_q0 p * p_charge_ratio p * V *
     sin (PI / 180 * lag - 2 * PI / 299792458 * f * (p_zeta p / (p_beta0 p * p_rvv p))) = dE).
  { unfold dE, tau. f_equal. f_equal. unfold Rdiv. ring. }
  rewrite Eq. exact (add_energy_ok p P E dE Hg Hd Hm).
Qed.
Print Assumptions C31_cavity.

Example C31_cavity_case : good_reference sample /\ describes sample (15/2) (17/2) /\
  let tau := p_zeta sample / (p_beta0 sample * p_rvv sample) in
  p_mass0 sample < 17/2 + p_q0 sample * p_charge_ratio sample * 2 * sin (PI * 30 / 180 - 2 * PI * 400 * tau / 299792458).
Proof.
  destruct sample_ok as (H1 & H2). split; auto. split; auto. cbv zeta.
  match goal with |- context [sin ?a] => pose proof (SIN_bound a) as [B _]; set (sn := sin a) in * end.
  cbn [p_mass0 p_q0 p_charge_ratio sample]. lra.
Qed.

(* Along tracking through any lattice (any element types, any build configuration) the
   attributes stay consistent as long as the particle has forward momentum: whenever it
   arrives somewhere, delta > -1 and rvv > 0. *)
Theorem C31_tracking : forall c lattice p outs, consistent p ->
  (forall t j q o, arrives 0 (dispatch ROps c) lattice p outs t j q o -> -1 < p_delta q /\ 0 < p_rvv q) ->
  forall t j q o, arrives 0 (dispatch ROps c) lattice p outs t j q o -> consistent q.
Proof. intros. eapply arrives_consistent; eauto. Qed.
Print Assumptions C31_tracking.

Example C31_tracking_case : consistent sample /\
  forall t j q o, arrives 0 (dispatch ROps wide) [BDrift 2; BMultipole 0 0 0 0 [1; 1]; BDipoleEdge 1 2] sample [] t j q o ->
    -1 < p_delta q /\ 0 < p_rvv q.
Proof.
  split. { split; [apply sample_ok|]. exists (15/2), (17/2). apply sample_ok. }
  intros t j q o H. induction H.
  - cbn [p_delta p_rvv sample]. lra.
  - assert (E : p_delta q' = p_delta q /\ p_rvv q' = p_rvv q).
    { assert (Hbe : In be [BDrift 2; BMultipole 0 0 0 0 [1; 1]; BDipoleEdge 1 2]) by (eapply nth_error_In; eauto).
      cbn [In] in Hbe. destruct Hbe as [<-|[<-|[<-|[]]]]; cbn [dispatch] in H1; inversion H1; subst.
      - split; reflexivity.
      - unfold track_multipole. destruct (_ || _ || _ || _); [destruct (nltb ROps _ _)|]; split; reflexivity.
      - split; reflexivity. }
    destruct E as (E1 & E2). cbn [p_delta p_rvv set_at_element_id]. rewrite E1, E2. exact IHarrives.
  - exact IHarrives.
Qed.

(* ------------------------------------------------------------------ *)
(* C32: the kick is the complex multipole sum (plus curvature), with ba the interleaved
   coefficients; everything but px, py and zeta is unchanged. *)
Theorem C32_kick : forall order length hxl hyl ba p,
  let S := multipole_sum ba order (p_x p) (p_y p) in
  let chi := p_chi p in
  track_multipole ROps order length hxl hyl ba p =
  set_py (p_py p + (chi * Im S + curvature_py hyl length (nth 1 ba 0) chi (p_y p) (p_delta p)))
  (set_px (p_px p + (- chi * Re S + curvature_px hxl length (nth 0 ba 0) chi (p_x p) (p_delta p)))
  (set_zeta (p_zeta p + chi * (hyl * p_y p - hxl * p_x p)) p)).
Proof. apply multipole_map. Qed.
Print Assumptions C32_kick.

Theorem C32_straight : forall order length ba p,
  let S := multipole_sum ba order (p_x p) (p_y p) in
  track_multipole ROps order length 0 0 ba p =
  set_py (p_py p + p_chi p * Im S) (set_px (p_px p - p_chi p * Re S) p).
Proof.
  intros order length ba p S. rewrite multipole_map. fold S. unfold curvature_px, curvature_py.
  destruct (Rlt_dec 0 length); destruct p; pupdate; f_equal; try ring; field; lra.
Qed.
Print Assumptions C32_straight.

(* The kick in (px, py), curvature included, is minus the gradient of a potential. *)
Theorem C32_gradient : forall order length hxl hyl ba p,
  let q := track_multipole ROps order length hxl hyl ba p in
  let V := kick_potential order length hxl hyl ba (p_chi p) (p_delta p) in
  is_derive (fun x : R => V x (p_y p)) (p_x p) (- (p_px q - p_px p)) /\
  is_derive (fun y : R => V (p_x p) y) (p_y p) (- (p_py q - p_py p)).
Proof.
  intros order length hxl hyl ba p q V. unfold q. rewrite multipole_map. pfields.
  destruct (potential_gradient ba order (p_x p) (p_y p)) as (G1 & G2).
  unfold V, kick_potential, curvature_px, curvature_py.
  set (b0 := nth 0 ba 0). set (a0 := nth 1 ba 0).
  split.
  - evar_last.
    + eapply is_derive_ext; [|apply (is_derive_plus (fun x : R => p_chi p * multipole_potential ba order x (p_y p))
        (fun x : R => - hxl * (1 + p_delta p) * x + (if Rlt_dec 0 length then p_chi p * b0 * hxl * x ^ 2 / (2 * length) else 0)
           + hyl * (1 + p_delta p) * p_y p - (if Rlt_dec 0 length then p_chi p * a0 * hyl * p_y p ^ 2 / (2 * length) else 0))
        (p_x p) (p_chi p * Re (multipole_sum ba order (p_x p) (p_y p))) (- hxl * (1 + p_delta p) + (if Rlt_dec 0 length then p_chi p * b0 * hxl * p_x p / length else 0)))].
      * intros t. unfold plus. cbn. destruct (Rlt_dec 0 length); ring.
      * apply is_derive_scal. exact G1.
      * destruct (Rlt_dec 0 length); auto_derive; try trivial; try lra; try (field; lra); ring.
    + destruct (Rlt_dec 0 length); unfold plus; cbn; field; lra.
  - evar_last.
    + eapply is_derive_ext; [|apply (is_derive_plus (fun y : R => p_chi p * multipole_potential ba order (p_x p) y)
        (fun y : R => - hxl * (1 + p_delta p) * p_x p + (if Rlt_dec 0 length then p_chi p * b0 * hxl * p_x p ^ 2 / (2 * length) else 0)
           + hyl * (1 + p_delta p) * y - (if Rlt_dec 0 length then p_chi p * a0 * hyl * y ^ 2 / (2 * length) else 0))
        (p_y p) (p_chi p * - Im (multipole_sum ba order (p_x p) (p_y p))) (hyl * (1 + p_delta p) - (if Rlt_dec 0 length then p_chi p * a0 * hyl * p_y p / length else 0)))].
      * intros t. unfold plus. cbn. destruct (Rlt_dec 0 length); ring.
      * apply is_derive_scal. exact G2.
      * destruct (Rlt_dec 0 length); auto_derive; try trivial; try lra; try (field; lra); ring.
    + destruct (Rlt_dec 0 length); unfold plus; cbn; field; lra.
Qed.
Print Assumptions C32_gradient.

(* a combined quadrupole and sextupole at (x, y) = (2, 1), written out *)
Example C32_case : forall p, p_x p = 2 -> p_y p = 1 -> p_chi p = 1 ->
  let q := track_multipole ROps 2 0 0 0 [0; 0; 3; 5; 7; 11] p in
  p_px q = p_px p - (3 * 2 - 5 * 1 + 7 * (2 * 2 - 1 * 1) - 11 * (2 * 2 * 1)) /\
  p_py q = p_py p + (5 * 2 + 3 * 1 + 11 * (2 * 2 - 1 * 1) + 7 * (2 * 2 * 1)).
Proof.
  intros p Hx Hy Hc q. unfold q. rewrite C32_straight. pfields. rewrite Hx, Hy, Hc.
  unfold multipole_sum. rewrite !sum_Sn, sum_O. unfold plus. cbn. lra.
Qed.

(* ------------------------------------------------------------------ *)
(* C33 *)
Theorem C33_rotation : forall a b p,
  let rot w := track_srotation ROps (cos w) (sin w) in
  rot b (rot a p) = rot (a + b) p /\ rot (- a) (rot a p) = p /\
  (let q := rot a p in
   p_x q ^ 2 + p_y q ^ 2 = p_x p ^ 2 + p_y p ^ 2 /\ p_px q ^ 2 + p_py q ^ 2 = p_px p ^ 2 + p_py p ^ 2).
Proof. intros a b p rot. exact (conj (srot_compose a b p) (conj (srot_inverse a p) (srot_norm a p))). Qed.
Print Assumptions C33_rotation.

(* It is the rotation of the (x, y) and (px, py) planes by the angle. *)
Theorem C33_rotation_is : forall a p,
  let q := track_srotation ROps (cos a) (sin a) p in
  (p_x q, p_y q) = (cos a * p_x p + sin a * p_y p, cos a * p_y p - sin a * p_x p) /\
  (p_px q, p_py q) = (cos a * p_px p + sin a * p_py p, cos a * p_py p - sin a * p_px p) /\
  q = set_py (p_py q) (set_px (p_px q) (set_y (p_y q) (set_x (p_x q) p))).
Proof.
  intros a p q. unfold q, track_srotation. pfields. rops. split; [f_equal; ring|]. split; [f_equal; ring|reflexivity].
Qed.
Print Assumptions C33_rotation_is.

Theorem C33_shift : forall dx dy dx' dy' p,
  track_xyshift ROps dx' dy' (track_xyshift ROps dx dy p) = track_xyshift ROps (dx + dx') (dy + dy') p /\
  track_xyshift ROps (- dx) (- dy) (track_xyshift ROps dx dy p) = p /\
  track_xyshift ROps dx dy p = set_y (p_y p - dy) (set_x (p_x p - dx) p).
Proof. intros. split; [apply xyshift_compose|]. split; [apply xyshift_inverse|]. reflexivity. Qed.
Print Assumptions C33_shift.

Example C33_case : let q := track_srotation ROps (cos (PI/2)) (sin (PI/2)) sample in
  p_x q = -1/5 /\ p_y q = -1/10 /\ p_px q = 1/50 /\ p_py q = -1/100.
Proof.
  intros q. unfold q, track_srotation. rewrite cos_PI2, sin_PI2. pfields. rops.
  cbn [p_x p_y p_px p_py sample]. lra.
Qed.
