(* Specification of the field of a Gaussian beam (C51) and of the frames of the 6D
   beam-beam element (C50, C53). *)
From Coq Require Import ZArith Reals List.
From Coquelicot Require Import Coquelicot.
From Verif Require Import Num Interp BeamFields MapsR.
Import ListNotations.
Local Open Scope R_scope.

(* vacuum permittivity, from the header of the physical constants: 8.854187817620e-12 *)
Definition eps0 : R := 8854187817620 / 10 ^ 24.

(* transverse charge density of a beam of unit charge per length with a round Gaussian profile of rms size sigma *)
Definition round_density (sigma x y : R) : R :=
  exp (- (x ^ 2 + y ^ 2) / (2 * sigma ^ 2)) / (2 * PI * sigma ^ 2).

(* the four results of the field routine at a point: fields Ex, Ey and their derivatives
   with respect to the squared beam sizes, Gx, Gy *)
Definition field_Ex (sx sy msd x y : R) : R :=
  match gauss_fields ROps x y sx sy msd false with Some (e, _, _, _) => e | None => 0 end.
Definition field_Ey (sx sy msd x y : R) : R :=
  match gauss_fields ROps x y sx sy msd false with Some (_, e, _, _) => e | None => 0 end.
Definition field_Gx (sx sy msd x y : R) : R :=
  match gauss_fields ROps x y sx sy msd false with Some (_, _, g, _) => g | None => 0 end.
Definition field_Gy (sx sy msd x y : R) : R :=
  match gauss_fields ROps x y sx sy msd false with Some (_, _, _, g) => g | None => 0 end.

(* rotation data of a crossing angle phi in a plane of angle alpha *)
Definition crossing (phi alpha : R) (b : boost_data R) : Prop :=
  bo_sphi b = sin phi /\ bo_cphi b = cos phi /\ bo_tphi b = tan phi /\
  bo_salpha b = sin alpha /\ bo_calpha b = cos alpha.

(* longitudinal momentum, relative to the reference momentum *)
Definition pz_of (v : star R) : R := sqrt ((1 + st_delta v) ^ 2 - st_px v ^ 2 - st_py v ^ 2).

(* the particle moves forward both in the laboratory and along the rotated axis *)
Definition forward (phi alpha : R) (v : star R) : Prop :=
  0 < 1 + st_delta v /\ st_px v ^ 2 + st_py v ^ 2 < (1 + st_delta v) ^ 2 /\
  (st_px v * cos alpha + st_py v * sin alpha) * sin phi < pz_of v * cos phi.

(* Transverse sizes of a beam a distance S behind the point where its sigma matrix is
   given: a particle at (x, px, y, py) is found at (x + S px, y + S py), so the averages of
   x^2, y^2 and x y there are *)
Definition var_x (d : sigmas R) (S : R) : R := sg_11 d + 2 * S * sg_12 d + S ^ 2 * sg_22 d.
Definition var_y (d : sigmas R) (S : R) : R := sg_33 d + 2 * S * sg_34 d + S ^ 2 * sg_44 d.
Definition cov_xy (d : sigmas R) (S : R) : R := sg_13 d + S * (sg_14 d + sg_23 d) + S ^ 2 * sg_24 d.

(* squared distance of the transverse sizes from those of a round beam *)
Definition asymmetry (d : sigmas R) (S : R) : R := (var_x d S - var_y d S) ^ 2 + 4 * cov_xy d S ^ 2.

(* The axes of the beam are turned by an angle with cosine co and sine si, and the
   variances along the axes are h1 and h2: then the variances and the covariance in the
   original axes are *)
Definition turned_x (co si h1 h2 : R) : R := co ^ 2 * h1 + si ^ 2 * h2.
Definition turned_y (co si h1 h2 : R) : R := si ^ 2 * h1 + co ^ 2 * h2.
Definition turned_xy (co si h1 h2 : R) : R := co * si * (h1 - h2).
