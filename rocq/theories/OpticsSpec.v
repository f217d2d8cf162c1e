(* Specification of the physics used in the theorems about element maps over the reals. *)
From Coq Require Import ZArith Reals Bool.
From Verif Require Import Num Particle Elements MapsR.
Local Open Scope R_scope.

(* A reference particle of rest energy [mass0] and momentum [p0c] (both in eV, c = 1):
   its energy, and the relativistic beta stored with the particle is the right one. *)
Definition energy0 (p : particle R) : R := sqrt (p_p0c p ^ 2 + p_mass0 p ^ 2).
Definition good_reference (p : particle R) : Prop :=
  0 < p_p0c p /\ 0 <= p_mass0 p /\ p_beta0 p = p_p0c p / energy0 p.

(* The longitudinal attributes of [p] describe a particle of momentum [P] and energy [E]
   (both per unit of mass ratio, as everywhere in SixTrack): relative momentum deviation,
   psigma, inverse momentum ratio and velocity ratio. *)
Record describes (p : particle R) (P E : R) : Prop := {
  d_momentum : 0 < P;
  d_shell : E = sqrt (P ^ 2 + p_mass0 p ^ 2);
  d_delta : p_delta p = (P - p_p0c p) / p_p0c p;
  d_psigma : p_psigma p = (E - energy0 p) / (p_beta0 p * p_p0c p);
  d_rpp : p_rpp p = p_p0c p / P;
  d_rvv : p_rvv p = (P / E) / (p_p0c p / energy0 p) }.

(* [q] differs from [p] at most in the longitudinal attributes *)
Definition same_elsewhere (p q : particle R) : Prop :=
  q = mkParticle (p_q0 p) (p_mass0 p) (p_beta0 p) (p_gamma0 p) (p_p0c p) (p_s p) (p_x p) (p_y p) (p_px p)
        (p_py p) (p_zeta q) (p_psigma q) (p_delta q) (p_rpp q) (p_rvv q) (p_chi p) (p_charge_ratio p)
        (p_particle_id p) (p_at_element_id p) (p_at_turn p) (p_state p).

(* The time since the reference particle passed s = 0, times the speed of light: the reference
   particle is at s at the time s / beta0, and zeta = (beta / beta0) (s - beta0 c t). *)
Definition arrival (p : particle R) : R := (p_s p - p_zeta p / p_rvv p) / p_beta0 p.

(* the particle is inside the global aperture box *)
Definition in_box (c : config R) (p : particle R) : Prop :=
  Rabs (p_x p) < c_x_limit c /\ Rabs (p_y p) < c_y_limit c.

(* ---- complex numbers (Coquelicot's C = R * R) ---- *)
From Coquelicot Require Import Coquelicot.

Fixpoint Cpow (z : C) (n : nat) : C :=
  match n with O => RtoC 1 | S m => Cmult z (Cpow z m) end.

(* sum of (b_n + i a_n) (x + i y)^n over n = 0 .. order, [ba] the interleaved list
   b_0, a_0, b_1, a_1, ... *)
Definition multipole_sum (ba : list R) (order : nat) (x y : R) : C :=
  sum_n (fun n => Cmult (List.nth (2 * n) ba 0, List.nth (2 * n + 1) ba 0) (Cpow (x, y) n)) order.

(* potential: real part of the sum of (b_n + i a_n) (x + i y)^(n+1) / (n+1) *)
Definition multipole_potential (ba : list R) (order : nat) (x y : R) : R :=
  Re (sum_n (fun n => Cmult (List.nth (2 * n) ba 0 / INR (n + 1), List.nth (2 * n + 1) ba 0 / INR (n + 1))
                            (Cpow (x, y) (n + 1))) order).

(* curvature terms of a bent thin multipole with field strengths b0, a0 *)
Definition curvature_px (hxl length b0 chi x delta : R) : R :=
  hxl * (1 + delta) - (if Rlt_dec 0 length then chi * b0 * hxl * x / length else 0).
Definition curvature_py (hyl length a0 chi y delta : R) : R :=
  - hyl * (1 + delta) + (if Rlt_dec 0 length then chi * a0 * hyl * y / length else 0).

(* potential of the whole kick, curvature included *)
Definition kick_potential (order : nat) (length hxl hyl : R) (ba : list R) (chi delta x y : R) : R :=
  chi * multipole_potential ba order x y
  - hxl * (1 + delta) * x + (if Rlt_dec 0 length then chi * List.nth 0 ba 0 * hxl * x ^ 2 / (2 * length) else 0)
  + hyl * (1 + delta) * y - (if Rlt_dec 0 length then chi * List.nth 1 ba 0 * hyl * y ^ 2 / (2 * length) else 0).

(* one particle, one reference: the longitudinal attributes are consistent *)
Definition consistent (p : particle R) : Prop := good_reference p /\ exists P E, describes p P E.
