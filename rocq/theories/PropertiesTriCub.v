(** Theorems about the tri-cubic interpolation element (C39), over the reals. *)
From Coq Require Import ZArith Reals Lra Lia List Bool.
From Coquelicot Require Import Coquelicot.
From Verif Require Import Num Particle Energy Interp MapsR TriCubCoefs TriCub TriCubSpec TriCubProofs.
Import ListNotations.
Local Open Scope R_scope.

(** The polynomial built from any 64 numbers takes them as value, first derivatives,
    mixed second derivatives and mixed third derivative at the eight corners. *)
Theorem C39_corners (b : nat -> R) (l c : nat) : (l < 8)%nat -> (c < 8)%nat ->
  quantity l (tripoly (fun n => nth n (construct_coefs ROps b) 0))
    (INR (bit c 0)) (INR (bit c 1)) (INR (bit c 2)) = b (8 * l + c)%nat.
Proof.
  intros Hl Hc. rewrite quantity_P by auto. exact (corners_ok b l c Hl Hc).
Qed.
Print Assumptions C39_corners.

(** It is the only polynomial of that form which does. *)
Theorem C39_unique (b a : nat -> R) :
  (forall l c, (l < 8)%nat -> (c < 8)%nat ->
     quantity l (tripoly a) (INR (bit c 0)) (INR (bit c 1)) (INR (bit c 2)) = b (8 * l + c)%nat) ->
  forall n, (n < 64)%nat -> a n = nth n (construct_coefs ROps b) 0.
Proof.
  intro H. apply (unique a b). intros l c Hl Hc. rewrite <- quantity_P by auto. now apply H.
Qed.
Print Assumptions C39_unique.

(** The kick: the particle's cell is the one that contains it, the potential of that
    cell interpolates the table at all its corners, the momenta change by the
    gradient of the potential times the length (plus the dipolar terms) and the
    energy by charge times reference momentum times the longitudinal gradient. *)
Theorem C39_kick (tc : tricub R) (p p' : particle R) :
  let d := tc_data tc in
  let tau := p_zeta p / (p_beta0 p * p_rvv p) in
  0 < td_dx d -> 0 < td_dy d -> 0 < td_dz d ->
  track_tricub ROps tc p = Some p' ->
  exists (ix iy iz : Z) (a : nat -> R),
    let phi := potential tc a (p_x p) (p_y p) tau ix iy iz in
    in_cell (side (td_mirror_x d) (offset_x tc (p_x p))) (offset_x tc (p_x p)) (td_dx d) ix /\
    in_cell (side (td_mirror_y d) (offset_y tc (p_y p))) (offset_y tc (p_y p)) (td_dy d) iy /\
    in_cell (side (td_mirror_z d) (offset_z tc tau)) (offset_z tc tau) (td_dz d) iz /\
    interpolates d ix iy iz a /\
    p' = add_to_energy ROps
      (p_q0 p * p_charge_ratio p * p_p0c p *
        (- tc_length tc * Dz phi (p_x p) (p_y p) tau - tc_dipolar_kick_ptau tc))
      (set_py (p_py p - tc_length tc * Dy phi (p_x p) (p_y p) tau - tc_dipolar_kick_py tc)
      (set_px (p_px p - tc_length tc * Dx phi (p_x p) (p_y p) tau - tc_dipolar_kick_px tc) p)).
Proof. intros d tau. apply track_tricub_kick. Qed.
Print Assumptions C39_kick.

(** The interpolated field has no steps: value and all stored derivatives of two
    neighbouring cells agree on the whole face they share. *)
Theorem C39_smooth (d : tricub_data R) (ix iy iz : Z) (a a' : nat -> R) (l : nat) (u v : R) :
  (l < 8)%nat -> interpolates d ix iy iz a ->
  (interpolates d (ix + 1) iy iz a' -> quantity l (tripoly a) 1 u v = quantity l (tripoly a') 0 u v) /\
  (interpolates d ix (iy + 1) iz a' -> quantity l (tripoly a) u 1 v = quantity l (tripoly a') u 0 v) /\
  (interpolates d ix iy (iz + 1) a' -> quantity l (tripoly a) u v 1 = quantity l (tripoly a') u v 0).
Proof. apply neighbours. Qed.
Print Assumptions C39_smooth.

(** Inside the grid the table is never read out of bounds. *)
Theorem C39_defined (tc : tricub R) (p : particle R) :
  let d := tc_data tc in
  let tau := p_zeta p / (p_beta0 p * p_rvv p) in
  0 < td_dx d -> 0 < td_dy d -> 0 < td_dz d ->
  (td_nx d <= 2 ^ 63)%Z -> (td_ny d <= 2 ^ 63)%Z -> (td_nz d <= 2 ^ 63)%Z ->
  length (td_table d) = Z.to_nat (8 * td_nx d * td_ny d * td_nz d) ->
  inside (td_mirror_x d) (offset_x tc (p_x p)) (td_dx d) (td_nx d) ->
  inside (td_mirror_y d) (offset_y tc (p_y p)) (td_dy d) (td_ny d) ->
  inside (td_mirror_z d) (offset_z tc tau) (td_dz d) (td_nz d) ->
  exists p', track_tricub ROps tc p = Some p'.
Proof. apply track_tricub_defined. Qed.
Print Assumptions C39_defined.

Definition probe (x y : R) : particle R :=
  mkParticle 1 1 1 1 1 0 x y 0 0 0 0 0 1 1 1 1 0%Z 0%Z 0%Z 1%Z.

(** A table with one nonzero entry: the x derivative at grid point (0, 1, 0). *)
Definition one_entry (nx ny nz : Z) (k : nat) : tricub_data R :=
  mkTriCubData 0 1 nx 0 1 ny 0 1 nz 1 0 0
    (repeat 0 k ++ 1 :: repeat 0 (Z.to_nat (8 * nx * ny * nz) - S k)).
Definition lens (d : tricub_data R) : tricub R := mkTriCub 0 0 0 0 0 0 1 d.

(** The hypotheses hold for a mirrored grid and a particle on the mirrored side. *)
Example C39_rules_satisfiable :
  exists p', track_tricub ROps (lens (one_entry 2 3 2 17)) (probe (-1 / 2) (1 / 2)) = Some p'.
Proof.
  assert (H2 : (2 <= 2 ^ 63)%Z) by (vm_compute; discriminate).
  assert (H3 : (3 <= 2 ^ 63)%Z) by (vm_compute; discriminate).
  apply C39_defined; [cbn; lra | cbn; lra | cbn; lra | exact H2 | exact H3 | exact H2 | reflexivity | | |];
    unfold inside, side, offset_x, offset_y, offset_z; cbn.
  - match goal with |- context [Rlt_dec ?a ?b] => destruct (Rlt_dec a b) end; lra.
  - lra.
  - lra.
Qed.

(** A particle beyond the last grid point is neither lost nor left alone: the element
    uses the data of other grid points.  Here the grid ends at x = 1 and the
    particle at x = 2, y = 0 gets the x kick stored for the point (0, 1, 0). *)
Theorem C39_outside_refuted : exists (tc : tricub R) (p p' : particle R),
  let d := tc_data tc in
  length (td_table d) = Z.to_nat (8 * td_nx d * td_ny d * td_nz d) /\
  IZR (td_nx d - 1) * td_dx d < offset_x tc (p_x p) /\
  track_tricub ROps tc p = Some p' /\ p_state p = 1%Z /\ p_state p' = 1%Z /\
  p_px p' = p_px p - 1.
Proof.
  set (tc := lens (one_entry 2 3 2 17)). set (p := probe 2 0).
  assert (SX : side 1 (offset_x tc 2) = 1).
  { unfold side, offset_x; cbn. match goal with |- context [Rlt_dec ?a ?b] => destruct (Rlt_dec a b) end; lra. }
  assert (D : exists p', track_tricub ROps tc p = Some p').
  { apply track_tricub_some with (ix := 2%Z) (iy := 0%Z) (iz := 0%Z);
      [cbn; lra | cbn; lra | cbn; lra | | | | vm_compute; reflexivity | vm_compute; reflexivity
      | vm_compute; reflexivity |]; unfold in_cell.
    - change (p_x p) with 2. change (td_mirror_x (tc_data tc)) with 1%Z. rewrite SX.
      unfold offset_x; cbn; lra.
    - unfold side, offset_y; cbn. lra.
    - unfold side, offset_z; cbn. lra.
    - unfold construct_b. cbn [seq flat_map map app corners].
      cbv delta [one_entry lens tc tc_data td_table table_index td_nx td_ny arr_at] beta iota zeta.
      cbn. discriminate. }
  destruct D as [p' E]. exists tc, p, p'.
  assert (E' := E). apply C39_kick in E'; [| cbn; lra | cbn; lra | cbn; lra].
  destruct E' as [ix [iy [iz [a [C1 [C2 [C3 [I Ep]]]]]]]].
  split. { reflexivity. }
  split. { unfold offset_x; cbn; lra. }
  split; [exact E |]. split; [reflexivity |].
  assert (Ex : ix = 2%Z).
  { apply in_cell_Int_part in C1. rewrite <- C1.
    change (p_x p) with 2. change (td_mirror_x (tc_data tc)) with 1%Z. rewrite SX.
    replace (1 * (offset_x tc 2 * (1 / td_dx (tc_data tc)))) with (IZR 2)
      by (unfold offset_x; cbn; field). apply Int_part_IZR. }
  assert (Ey : iy = 0%Z).
  { apply in_cell_Int_part in C2. rewrite <- C2.
    replace (_ * _) with (IZR 0) by (unfold side, offset_y; cbn; field). apply Int_part_IZR. }
  assert (Ez : iz = 0%Z).
  { apply in_cell_Int_part in C3. rewrite <- C3.
    replace (_ * _) with (IZR 0) by (unfold side, offset_z; cbn; field). apply Int_part_IZR. }
  subst ix iy iz.
  assert (G := I 1%nat 0%nat ltac:(lia) ltac:(lia)).
  rewrite quantity_P in G by lia.
  change (grid (tc_data tc) 1 (2 + Z.of_nat (bit 0 0)) (0 + Z.of_nat (bit 0 1)) (0 + Z.of_nat (bit 0 2)))
    with (Some 1) in G.
  assert (G' : 1 = P a 1 0 0 0 0 0)
    by exact (f_equal (fun o => match o with Some w => w | None => 0 end) G).
  split; rewrite Ep; [reflexivity |].
  unfold add_to_energy. pfields. rewrite pot_dx.
  change (p_x p) with 2. change (td_mirror_x (tc_data tc)) with 1%Z. rewrite SX.
  replace (cellpos 1 2 _ _ _ _) with 0 by (unfold cellpos; cbn; field).
  replace (cellpos _ (p_y p) _ _ _ _) with 0 by (unfold cellpos, side; cbn; field).
  replace (cellpos _ (_ / _) _ _ _ _) with 0 by (unfold cellpos, side; cbn; field).
  rewrite <- G'. cbn. field.
Qed.
Print Assumptions C39_outside_refuted.
