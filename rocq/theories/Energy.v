(* Energy-related particle operations (sixtracklib/common/particles.h), for an
   arbitrary number type. *)
From Coq Require Import ZArith List Bool.
From Verif Require Import Num Particle.

Set Implicit Arguments.

Section Energy.
Variable T : Type.
Variable N : NumOps T.

Notation "a +. b" := (nadd N a b) (at level 50, left associativity).
Notation "a -. b" := (nsub N a b) (at level 50, left associativity).
Notation "a *. b" := (nmul N a b) (at level 40, left associativity).
Notation "a /. b" := (ndiv N a b) (at level 40, left associativity).
Notation "'#' z" := (nofZ N z) (at level 5).

(* particles.h 5220-5234: Particles_get_energy0_value *)
Definition get_energy0 (p : particle T) : T :=
  nsqrt N (p_p0c p *. p_p0c p +. p_mass0 p *. p_mass0 p).

(* particles.h 5828-5837: Particles_get_mass_ratio_value *)
Definition get_mass_ratio (p : particle T) : T := p_charge_ratio p /. p_chi p.

(* particles.h 5236-5253: Particles_get_energy_value *)
Definition get_energy (p : particle T) : T :=
  (p_psigma p *. p_beta0 p *. p_p0c p +.
   nsqrt N (p_p0c p *. p_p0c p +. p_mass0 p *. p_mass0 p)) *. get_mass_ratio p.

(* particles.h 5255-5297: Particles_add_to_energy_value *)
Definition add_to_energy (delta_energy : T) (p : particle T) : particle T :=
  let beta0 := p_beta0 p in
  let delta_beta0 := p_delta p *. beta0 in
  let ptau_beta0 :=
    delta_energy /. get_energy0 p +.
    nsqrt N (delta_beta0 *. delta_beta0 +. #2 *. delta_beta0 *. beta0 +. #1) -. #1 in
  let ptau := ptau_beta0 /. beta0 in
  let psigma := ptau /. beta0 in
  let delta := nsqrt N (ptau *. ptau +. #2 *. psigma +. #1) -. #1 in
  let one_plus_delta := delta +. #1 in
  let rvv := one_plus_delta /. (#1 +. ptau_beta0) in
  let p := set_delta delta p in
  let p := set_psigma psigma p in
  let p := set_zeta (p_zeta p *. (rvv /. p_rvv p)) p in
  let p := set_rvv rvv p in
  set_rpp (#1 /. one_plus_delta) p.

(* particles.h 5459-5497: Particles_update_delta_value *)
Definition update_delta (new_delta : T) (p : particle T) : particle T :=
  let beta0 := p_beta0 p in
  let delta_beta0 := new_delta *. beta0 in
  let ptau_beta0 :=
    nsqrt N (delta_beta0 *. delta_beta0 +. #2 *. delta_beta0 *. beta0 +. #1) -. #1 in
  let one_plus_delta := #1 +. new_delta in
  let rvv := one_plus_delta /. (#1 +. ptau_beta0) in
  let rpp := #1 /. one_plus_delta in
  let psigma := ptau_beta0 /. (beta0 *. beta0) in
  let p := set_delta new_delta p in
  let p := set_rvv rvv p in
  let p := set_rpp rpp p in
  set_psigma psigma p.

End Energy.
