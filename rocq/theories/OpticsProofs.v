(* Proofs about drifts, energy changes, shifts and rotations over the reals. *)
From Coq Require Import ZArith Reals Lra Lia Bool Psatz.
From Verif Require Import Num Particle Energy Elements MapsR OpticsSpec.
Local Open Scope R_scope.

(* ---- drifts ---- *)
Lemma drift_compose : forall l1 l2 p,
  track_drift ROps l2 (track_drift ROps l1 p) = track_drift ROps (l1 + l2) p.
Proof. intros. unfold track_drift. pext p; try reflexivity; rops; field. Qed.

Lemma drift_zero : forall p, track_drift ROps 0 p = p.
Proof. intros. unfold track_drift. pext p; try reflexivity; field. Qed.

Lemma drift_inverse : forall l p, track_drift ROps (- l) (track_drift ROps l p) = p.
Proof. intros. rewrite drift_compose, Rplus_opp_r. apply drift_zero. Qed.

Lemma exact_compose : forall l1 l2 p,
  track_drift_exact ROps l2 (track_drift_exact ROps l1 p) = track_drift_exact ROps (l1 + l2) p.
Proof. intros. unfold track_drift_exact. pext p; try reflexivity; rops; unfold Rdiv; ring. Qed.

Lemma exact_zero : forall p, track_drift_exact ROps 0 p = p.
Proof. intros. unfold track_drift_exact. pext p; try reflexivity; unfold Rdiv; ring. Qed.

Lemma exact_inverse : forall l p, track_drift_exact ROps (- l) (track_drift_exact ROps l p) = p.
Proof. intros. rewrite exact_compose, Rplus_opp_r. apply exact_zero. Qed.

(* ---- the global aperture ---- *)
Lemma sign_abs : forall x,
  (b2t ROps (Rltb 0 x) - b2t ROps (Rltb x 0)) * x = Rabs x.
Proof.
  intros. unfold b2t, Rltb. rops.
  destruct (Rlt_dec 0 x), (Rlt_dec x 0); try lra.
  - rewrite Rabs_right; lra.
  - rewrite Rabs_left; lra.
  - assert (x = 0) by lra. subst. rewrite Rabs_R0. lra.
Qed.

Lemma limit_global_state : forall c p,
  track_limit_global ROps c p =
  set_state (Z.land (p_state p) (Z.land (b2z (Rltb (Rabs (p_x p)) (c_x_limit c)))
                                        (b2z (Rltb (Rabs (p_y p)) (c_y_limit c))))) p.
Proof. intros. unfold track_limit_global. rops. rewrite !sign_abs. reflexivity. Qed.

Lemma limit_global_in : forall c p, in_box c p -> p_state p = 1%Z -> track_limit_global ROps c p = p.
Proof.
  intros c p (H1 & H2) Hs. rewrite limit_global_state.
  rewrite (proj2 (Rltb_true _ _) H1), (proj2 (Rltb_true _ _) H2), Hs. destruct p; cbn in *. subst. reflexivity.
Qed.

Lemma limit_global_iff : forall c p, p_state p = 1%Z ->
  (p_state (track_limit_global ROps c p) = 1%Z <-> in_box c p).
Proof.
  intros c p Hs. rewrite limit_global_state. pfields. rewrite Hs. unfold in_box.
  rewrite <- !Rltb_true. destruct (Rltb (Rabs (p_x p)) _), (Rltb (Rabs (p_y p)) _); cbn; intuition discriminate.
Qed.

(* on a straight line between two points of the box one stays in the box *)
Lemma between : forall a d s t l, 0 <= s <= t -> Rabs a < l -> Rabs (a + d * t) < l -> Rabs (a + d * s) < l.
Proof.
  intros a d s t l (H0 & H1) Ha Hb. apply Rabs_def2 in Ha, Hb. apply Rabs_def1.
  - destruct (Rle_dec 0 d). nra. nra.
  - destruct (Rle_dec 0 d). nra. nra.
Qed.

Lemma drift_split_lattice : forall c l1 l2 p outs, 0 <= l1 -> 0 <= l2 -> p_state p = 1%Z ->
  in_box c p -> in_box c (track_drift ROps (l1 + l2) p) ->
  forall q, dispatch ROps c (BDrift (l1 + l2)) p outs = Some (q, outs, 0%Z) ->
  exists q1, dispatch ROps c (BDrift l1) p outs = Some (q1, outs, 0%Z) /\ p_state q1 = 1%Z /\
             dispatch ROps c (BDrift l2) q1 outs = Some (q, outs, 0%Z).
Proof.
  intros c l1 l2 p outs H1 H2 Hs Hb He q Hq. exists (track_drift ROps l1 p).
  assert (Hm : in_box c (track_drift ROps l1 p)).
  { destruct Hb as (B1 & B2), He as (E1 & E2). unfold track_drift in *. unfold in_box. pfields. rops.
    split; eapply between with (t := l1 + l2); eauto; lra. }
  assert (D : forall l r, in_box c (track_drift ROps l r) -> p_state r = 1%Z ->
     dispatch ROps c (BDrift l) r outs = Some (track_drift ROps l r, outs, 0%Z)).
  { intros l r Hi Hr. cbn [dispatch]. destruct (drift_check ROps c l); [|reflexivity].
    rewrite limit_global_in; auto. }
  rewrite D in Hq by auto. split; [apply D; auto|]. split; [exact Hs|].
  rewrite D; [rewrite drift_compose; exact Hq| rewrite drift_compose; auto| exact Hs].
Qed.

(* ---- energy ---- *)
Lemma sqrt_div_sq : forall a b, 0 <= a -> 0 < b -> sqrt (a ^ 2 / b ^ 2) = a / b.
Proof.
  intros a b Ha Hb. replace (a ^ 2 / b ^ 2) with ((a / b) ^ 2) by (field; lra).
  apply sqrt_pow2. apply Rmult_le_pos; auto. left; apply Rinv_0_lt_compat; auto.
Qed.

Lemma energy0_pos : forall p, good_reference p -> 0 < energy0 p /\ energy0 p ^ 2 = p_p0c p ^ 2 + p_mass0 p ^ 2.
Proof.
  intros p (H1 & H2 & _). assert (0 < p_p0c p ^ 2 + p_mass0 p ^ 2) by nra. split.
  - now apply sqrt_lt_R0.
  - unfold energy0. rewrite pow2_sqrt; lra.
Qed.

Lemma energy0_model : forall p, get_energy0 ROps p = energy0 p.
Proof. intros. unfold get_energy0, energy0. rops. f_equal. ring. Qed.

Lemma shell : forall m P E, 0 < P -> 0 <= m -> E = sqrt (P ^ 2 + m ^ 2) -> 0 < E /\ E ^ 2 = P ^ 2 + m ^ 2.
Proof.
  intros m P E HP Hm ->. assert (0 < P ^ 2 + m ^ 2) by nra. split; [now apply sqrt_lt_R0|].
  rewrite pow2_sqrt; lra.
Qed.

Lemma beta_terms : forall p0 b P E E0, 0 < p0 -> 0 < E0 -> 0 < E -> b = p0 / E0 ->
  E ^ 2 - P ^ 2 = E0 ^ 2 - p0 ^ 2 ->
  let db := (P - p0) / p0 * b in
  sqrt (db * db + 2 * db * b + 1) = E / E0.
Proof.
  intros p0 b P E E0 H1 H2 H3 Hb Hs db. unfold db. subst b. rewrite <- (sqrt_div_sq E E0) by lra. f_equal.
  replace (E ^ 2) with (P ^ 2 + E0 ^ 2 - p0 ^ 2) by lra. field. lra.
Qed.

Lemma delta_terms : forall p0 b P E E0, 0 < p0 -> 0 < E0 -> 0 < P -> b = p0 / E0 ->
  E ^ 2 - P ^ 2 = E0 ^ 2 - p0 ^ 2 ->
  let ptau := ((E - E0) / E0) / b in
  sqrt (ptau * ptau + 2 * (ptau / b) + 1) = P / p0.
Proof.
  intros p0 b P E E0 H1 H2 H3 Hb Hs ptau. unfold ptau. subst b. rewrite <- (sqrt_div_sq P p0) by lra. f_equal.
  replace (P ^ 2) with (E ^ 2 - E0 ^ 2 + p0 ^ 2) by lra. field. lra.
Qed.

Lemma add_energy_ok : forall p P E dE, good_reference p -> describes p P E ->
  p_mass0 p < E + dE ->
  let q := add_to_energy ROps dE p in
  describes q (sqrt ((E + dE) ^ 2 - p_mass0 p ^ 2)) (E + dE) /\
  p_zeta q / p_rvv q = p_zeta p / p_rvv p /\ same_elsewhere p q.
Proof.
  intros p P E dE Hg Hd Hm q. pose proof Hg as (Hp0 & Hm0 & Hb). destruct (energy0_pos p Hg) as (HE0 & HE02).
  destruct Hd as [HP HE Hdel Hps Hrpp Hrvv].
  destruct (shell _ _ _ HP Hm0 HE) as (HEp & HE2).
  set (E' := E + dE) in *. set (P' := sqrt (E' ^ 2 - p_mass0 p ^ 2)).
  assert (HE'0 : 0 < E' ^ 2 - p_mass0 p ^ 2) by nra.
  assert (HP' : 0 < P') by now apply sqrt_lt_R0.
  assert (HP2 : P' ^ 2 = E' ^ 2 - p_mass0 p ^ 2) by (unfold P'; rewrite pow2_sqrt; lra).
  assert (HE'p : 0 < E') by lra.
  assert (T1 : dE / energy0 p + E / energy0 p - 1 = (E' - energy0 p) / energy0 p)
    by (unfold E'; field; lra).
  assert (T2 := beta_terms (p_p0c p) (p_beta0 p) P E (energy0 p) Hp0 HE0 HEp Hb ltac:(lra)).
  assert (T3 := delta_terms (p_p0c p) (p_beta0 p) P' E' (energy0 p) Hp0 HE0 HP' Hb ltac:(lra)).
  cbv zeta in T2, T3.
  assert (Hq : q = mkParticle (p_q0 p) (p_mass0 p) (p_beta0 p) (p_gamma0 p) (p_p0c p) (p_s p) (p_x p) (p_y p)
     (p_px p) (p_py p) (p_zeta p * (((P' / p_p0c p - 1 + 1) / (1 + (E' - energy0 p) / energy0 p)) / p_rvv p))
     (((E' - energy0 p) / energy0 p) / p_beta0 p / p_beta0 p) (P' / p_p0c p - 1)
     (1 / (P' / p_p0c p - 1 + 1)) ((P' / p_p0c p - 1 + 1) / (1 + (E' - energy0 p) / energy0 p)) (p_chi p)
     (p_charge_ratio p) (p_particle_id p) (p_at_element_id p) (p_at_turn p) (p_state p)).
  { unfold q, add_to_energy. rewrite energy0_model. rops. rewrite Hdel, T2, T1, T3. reflexivity. }
  assert (Hb0 : p_beta0 p <> 0) by (rewrite Hb; apply Rgt_not_eq; apply Rdiv_lt_0_compat; auto).
  assert (Hrv : p_rvv p <> 0).
  { rewrite Hrvv. apply Rgt_not_eq. apply Rdiv_lt_0_compat; apply Rdiv_lt_0_compat; auto. }
  split; [|split].
  - rewrite Hq. constructor; pfields.
    + exact HP'.
    + rewrite HP2. replace (E' ^ 2 - p_mass0 p ^ 2 + p_mass0 p ^ 2) with (E' ^ 2) by ring.
      rewrite sqrt_pow2; lra.
    + field. lra.
    + change (energy0 _) with (energy0 p). rewrite Hb. field. lra.
    + field. lra.
    + change (energy0 _) with (energy0 p). field. lra.
  - rewrite Hq. pfields. field. split; [exact Hrv|]. split; [|split]; lra.
  - unfold same_elsewhere. rewrite Hq. reflexivity.
Qed.

Lemma update_delta_ok : forall p d, good_reference p -> 0 < 1 + d ->
  let q := update_delta ROps d p in
  let P := p_p0c p * (1 + d) in
  describes q P (sqrt (P ^ 2 + p_mass0 p ^ 2)) /\ p_delta q = d /\ p_zeta q = p_zeta p /\ same_elsewhere p q.
Proof.
  intros p d Hg Hd q P. pose proof Hg as (Hp0 & Hm0 & Hb). destruct (energy0_pos p Hg) as (HE0 & HE02).
  assert (HP : 0 < P) by (unfold P; nra).
  set (E := sqrt (P ^ 2 + p_mass0 p ^ 2)).
  destruct (shell (p_mass0 p) P E HP Hm0 eq_refl) as (HEp & HE2).
  assert (T2 := beta_terms (p_p0c p) (p_beta0 p) P E (energy0 p) Hp0 HE0 HEp Hb ltac:(lra)).
  cbv zeta in T2. replace ((P - p_p0c p) / p_p0c p) with d in T2 by (unfold P; field; lra).
  assert (Hq : q = mkParticle (p_q0 p) (p_mass0 p) (p_beta0 p) (p_gamma0 p) (p_p0c p) (p_s p) (p_x p) (p_y p)
     (p_px p) (p_py p) (p_zeta p) ((E / energy0 p - 1) / (p_beta0 p * p_beta0 p)) d (1 / (1 + d))
     ((1 + d) / (1 + (E / energy0 p - 1))) (p_chi p)
     (p_charge_ratio p) (p_particle_id p) (p_at_element_id p) (p_at_turn p) (p_state p)).
  { unfold q, update_delta. rops. rewrite T2. reflexivity. }
  split; [|split; [|split]].
  - rewrite Hq. constructor; pfields; try exact HP; try reflexivity.
    + unfold P. field. lra.
    + change (energy0 _) with (energy0 p). rewrite Hb. field. lra.
    + unfold P. field. lra.
    + change (energy0 _) with (energy0 p). unfold P. field. lra.
  - rewrite Hq. reflexivity.
  - rewrite Hq. reflexivity.
  - unfold same_elsewhere. rewrite Hq. reflexivity.
Qed.

Lemma get_energy_ok : forall p P E, good_reference p -> describes p P E ->
  get_energy ROps p = E * get_mass_ratio ROps p.
Proof.
  intros p P E Hg Hd. destruct (energy0_pos p Hg) as (HE0 & _). pose proof Hg as (Hp0 & _ & Hb).
  unfold get_energy. change (nsqrt ROps _) with (get_energy0 ROps p). rewrite energy0_model. rops.
  rewrite (d_psigma _ _ _ Hd). f_equal.
  assert (p_beta0 p <> 0) by (rewrite Hb; apply Rgt_not_eq; apply Rdiv_lt_0_compat; auto).
  field. split; lra.
Qed.

(* the particle a description determines is unique *)
Lemma describes_fun : forall p P E P' E', good_reference p -> describes p P E -> describes p P' E' -> P = P' /\ E = E'.
Proof.
  intros p P E P' E' (Hp0 & _) H1 H2.
  assert (P = P').
  { pose proof (d_delta _ _ _ H1) as A. rewrite (d_delta _ _ _ H2) in A.
    apply (f_equal (fun z => z * p_p0c p + p_p0c p)) in A. unfold Rdiv in A.
    rewrite !Rmult_assoc, !Rinv_l in A by lra. lra. }
  subst P'. split; auto. rewrite (d_shell _ _ _ H1), (d_shell _ _ _ H2). reflexivity.
Qed.

(* ---- shifts and rotations ---- *)
Lemma xyshift_compose : forall a b a' b' p,
  track_xyshift ROps a' b' (track_xyshift ROps a b p) = track_xyshift ROps (a + a') (b + b') p.
Proof. intros. unfold track_xyshift. pext p; try reflexivity; ring. Qed.

Lemma xyshift_inverse : forall a b p, track_xyshift ROps (- a) (- b) (track_xyshift ROps a b p) = p.
Proof. intros. unfold track_xyshift. pext p; try reflexivity; ring. Qed.

Lemma srot_compose : forall a b p,
  track_srotation ROps (cos b) (sin b) (track_srotation ROps (cos a) (sin a) p) =
  track_srotation ROps (cos (a + b)) (sin (a + b)) p.
Proof. intros. unfold track_srotation. rewrite cos_plus, sin_plus. pext p; try reflexivity; ring. Qed.

Lemma srot_zero : forall p, track_srotation ROps (cos 0) (sin 0) p = p.
Proof. intros. unfold track_srotation. rewrite cos_0, sin_0. pext p; try reflexivity; ring. Qed.

Lemma srot_inverse : forall a p,
  track_srotation ROps (cos (- a)) (sin (- a)) (track_srotation ROps (cos a) (sin a) p) = p.
Proof. intros. rewrite srot_compose, Rplus_opp_r. apply srot_zero. Qed.

Lemma srot_norm : forall a p, let q := track_srotation ROps (cos a) (sin a) p in
  p_x q ^ 2 + p_y q ^ 2 = p_x p ^ 2 + p_y p ^ 2 /\
  p_px q ^ 2 + p_py q ^ 2 = p_px p ^ 2 + p_py p ^ 2.
Proof.
  intros a p q. unfold q, track_srotation. pfields. rops. pose proof (sin2_cos2 a) as H. unfold Rsqr in H.
  split; ring_simplify; nra.
Qed.
