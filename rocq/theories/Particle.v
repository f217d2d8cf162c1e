(* One particle: the 21 per-particle attributes of NS(Particles).

   Models sixtracklib/common/particles/definitions.h and
   sixtracklib/common/particles.h lines 1539-1582 (attribute list and order of
   Particles_init_from_flat_arrays) and the accessors
   Particles_get_<attr>_value / Particles_set_<attr>_value /
   Particles_add_to_<attr>_value (particles.h 3121-6430), each of which reads or
   writes exactly the array element named by its attribute.
   Simplification: particle_index_t (int64) attributes are unbounded integers Z.
   This file is generated text: one field and one setter per attribute. *)
From Coq Require Import ZArith List Lia.
From Verif Require Import Num.
Import ListNotations.

Set Implicit Arguments.

Record particle (T : Type) := mkParticle {
  p_q0 : T;
  p_mass0 : T;
  p_beta0 : T;
  p_gamma0 : T;
  p_p0c : T;
  p_s : T;
  p_x : T;
  p_y : T;
  p_px : T;
  p_py : T;
  p_zeta : T;
  p_psigma : T;
  p_delta : T;
  p_rpp : T;
  p_rvv : T;
  p_chi : T;
  p_charge_ratio : T;
  p_particle_id : Z;
  p_at_element_id : Z;
  p_at_turn : Z;
  p_state : Z
}.

(* particles.h: NS(Particles_set_q0_value) *)
Definition set_q0 {T} (v : T) (p : particle T) : particle T :=
  mkParticle v (p_mass0 p) (p_beta0 p) (p_gamma0 p) (p_p0c p) (p_s p) (p_x p) (p_y p) (p_px p) (p_py p) (p_zeta p) (p_psigma p) (p_delta p) (p_rpp p) (p_rvv p) (p_chi p) (p_charge_ratio p) (p_particle_id p) (p_at_element_id p) (p_at_turn p) (p_state p).

(* particles.h: NS(Particles_set_mass0_value) *)
Definition set_mass0 {T} (v : T) (p : particle T) : particle T :=
  mkParticle (p_q0 p) v (p_beta0 p) (p_gamma0 p) (p_p0c p) (p_s p) (p_x p) (p_y p) (p_px p) (p_py p) (p_zeta p) (p_psigma p) (p_delta p) (p_rpp p) (p_rvv p) (p_chi p) (p_charge_ratio p) (p_particle_id p) (p_at_element_id p) (p_at_turn p) (p_state p).

(* particles.h: NS(Particles_set_beta0_value) *)
Definition set_beta0 {T} (v : T) (p : particle T) : particle T :=
  mkParticle (p_q0 p) (p_mass0 p) v (p_gamma0 p) (p_p0c p) (p_s p) (p_x p) (p_y p) (p_px p) (p_py p) (p_zeta p) (p_psigma p) (p_delta p) (p_rpp p) (p_rvv p) (p_chi p) (p_charge_ratio p) (p_particle_id p) (p_at_element_id p) (p_at_turn p) (p_state p).

(* particles.h: NS(Particles_set_gamma0_value) *)
Definition set_gamma0 {T} (v : T) (p : particle T) : particle T :=
  mkParticle (p_q0 p) (p_mass0 p) (p_beta0 p) v (p_p0c p) (p_s p) (p_x p) (p_y p) (p_px p) (p_py p) (p_zeta p) (p_psigma p) (p_delta p) (p_rpp p) (p_rvv p) (p_chi p) (p_charge_ratio p) (p_particle_id p) (p_at_element_id p) (p_at_turn p) (p_state p).

(* particles.h: NS(Particles_set_p0c_value) *)
Definition set_p0c {T} (v : T) (p : particle T) : particle T :=
  mkParticle (p_q0 p) (p_mass0 p) (p_beta0 p) (p_gamma0 p) v (p_s p) (p_x p) (p_y p) (p_px p) (p_py p) (p_zeta p) (p_psigma p) (p_delta p) (p_rpp p) (p_rvv p) (p_chi p) (p_charge_ratio p) (p_particle_id p) (p_at_element_id p) (p_at_turn p) (p_state p).

(* particles.h: NS(Particles_set_s_value) *)
Definition set_s {T} (v : T) (p : particle T) : particle T :=
  mkParticle (p_q0 p) (p_mass0 p) (p_beta0 p) (p_gamma0 p) (p_p0c p) v (p_x p) (p_y p) (p_px p) (p_py p) (p_zeta p) (p_psigma p) (p_delta p) (p_rpp p) (p_rvv p) (p_chi p) (p_charge_ratio p) (p_particle_id p) (p_at_element_id p) (p_at_turn p) (p_state p).

(* particles.h: NS(Particles_set_x_value) *)
Definition set_x {T} (v : T) (p : particle T) : particle T :=
  mkParticle (p_q0 p) (p_mass0 p) (p_beta0 p) (p_gamma0 p) (p_p0c p) (p_s p) v (p_y p) (p_px p) (p_py p) (p_zeta p) (p_psigma p) (p_delta p) (p_rpp p) (p_rvv p) (p_chi p) (p_charge_ratio p) (p_particle_id p) (p_at_element_id p) (p_at_turn p) (p_state p).

(* particles.h: NS(Particles_set_y_value) *)
Definition set_y {T} (v : T) (p : particle T) : particle T :=
  mkParticle (p_q0 p) (p_mass0 p) (p_beta0 p) (p_gamma0 p) (p_p0c p) (p_s p) (p_x p) v (p_px p) (p_py p) (p_zeta p) (p_psigma p) (p_delta p) (p_rpp p) (p_rvv p) (p_chi p) (p_charge_ratio p) (p_particle_id p) (p_at_element_id p) (p_at_turn p) (p_state p).

(* particles.h: NS(Particles_set_px_value) *)
Definition set_px {T} (v : T) (p : particle T) : particle T :=
  mkParticle (p_q0 p) (p_mass0 p) (p_beta0 p) (p_gamma0 p) (p_p0c p) (p_s p) (p_x p) (p_y p) v (p_py p) (p_zeta p) (p_psigma p) (p_delta p) (p_rpp p) (p_rvv p) (p_chi p) (p_charge_ratio p) (p_particle_id p) (p_at_element_id p) (p_at_turn p) (p_state p).

(* particles.h: NS(Particles_set_py_value) *)
Definition set_py {T} (v : T) (p : particle T) : particle T :=
  mkParticle (p_q0 p) (p_mass0 p) (p_beta0 p) (p_gamma0 p) (p_p0c p) (p_s p) (p_x p) (p_y p) (p_px p) v (p_zeta p) (p_psigma p) (p_delta p) (p_rpp p) (p_rvv p) (p_chi p) (p_charge_ratio p) (p_particle_id p) (p_at_element_id p) (p_at_turn p) (p_state p).

(* particles.h: NS(Particles_set_zeta_value) *)
Definition set_zeta {T} (v : T) (p : particle T) : particle T :=
  mkParticle (p_q0 p) (p_mass0 p) (p_beta0 p) (p_gamma0 p) (p_p0c p) (p_s p) (p_x p) (p_y p) (p_px p) (p_py p) v (p_psigma p) (p_delta p) (p_rpp p) (p_rvv p) (p_chi p) (p_charge_ratio p) (p_particle_id p) (p_at_element_id p) (p_at_turn p) (p_state p).

(* particles.h: NS(Particles_set_psigma_value) *)
Definition set_psigma {T} (v : T) (p : particle T) : particle T :=
  mkParticle (p_q0 p) (p_mass0 p) (p_beta0 p) (p_gamma0 p) (p_p0c p) (p_s p) (p_x p) (p_y p) (p_px p) (p_py p) (p_zeta p) v (p_delta p) (p_rpp p) (p_rvv p) (p_chi p) (p_charge_ratio p) (p_particle_id p) (p_at_element_id p) (p_at_turn p) (p_state p).

(* particles.h: NS(Particles_set_delta_value) *)
Definition set_delta {T} (v : T) (p : particle T) : particle T :=
  mkParticle (p_q0 p) (p_mass0 p) (p_beta0 p) (p_gamma0 p) (p_p0c p) (p_s p) (p_x p) (p_y p) (p_px p) (p_py p) (p_zeta p) (p_psigma p) v (p_rpp p) (p_rvv p) (p_chi p) (p_charge_ratio p) (p_particle_id p) (p_at_element_id p) (p_at_turn p) (p_state p).

(* particles.h: NS(Particles_set_rpp_value) *)
Definition set_rpp {T} (v : T) (p : particle T) : particle T :=
  mkParticle (p_q0 p) (p_mass0 p) (p_beta0 p) (p_gamma0 p) (p_p0c p) (p_s p) (p_x p) (p_y p) (p_px p) (p_py p) (p_zeta p) (p_psigma p) (p_delta p) v (p_rvv p) (p_chi p) (p_charge_ratio p) (p_particle_id p) (p_at_element_id p) (p_at_turn p) (p_state p).

(* particles.h: NS(Particles_set_rvv_value) *)
Definition set_rvv {T} (v : T) (p : particle T) : particle T :=
  mkParticle (p_q0 p) (p_mass0 p) (p_beta0 p) (p_gamma0 p) (p_p0c p) (p_s p) (p_x p) (p_y p) (p_px p) (p_py p) (p_zeta p) (p_psigma p) (p_delta p) (p_rpp p) v (p_chi p) (p_charge_ratio p) (p_particle_id p) (p_at_element_id p) (p_at_turn p) (p_state p).

(* particles.h: NS(Particles_set_chi_value) *)
Definition set_chi {T} (v : T) (p : particle T) : particle T :=
  mkParticle (p_q0 p) (p_mass0 p) (p_beta0 p) (p_gamma0 p) (p_p0c p) (p_s p) (p_x p) (p_y p) (p_px p) (p_py p) (p_zeta p) (p_psigma p) (p_delta p) (p_rpp p) (p_rvv p) v (p_charge_ratio p) (p_particle_id p) (p_at_element_id p) (p_at_turn p) (p_state p).

(* particles.h: NS(Particles_set_charge_ratio_value) *)
Definition set_charge_ratio {T} (v : T) (p : particle T) : particle T :=
  mkParticle (p_q0 p) (p_mass0 p) (p_beta0 p) (p_gamma0 p) (p_p0c p) (p_s p) (p_x p) (p_y p) (p_px p) (p_py p) (p_zeta p) (p_psigma p) (p_delta p) (p_rpp p) (p_rvv p) (p_chi p) v (p_particle_id p) (p_at_element_id p) (p_at_turn p) (p_state p).

(* particles.h: NS(Particles_set_particle_id_value) *)
Definition set_particle_id {T} (v : Z) (p : particle T) : particle T :=
  mkParticle (p_q0 p) (p_mass0 p) (p_beta0 p) (p_gamma0 p) (p_p0c p) (p_s p) (p_x p) (p_y p) (p_px p) (p_py p) (p_zeta p) (p_psigma p) (p_delta p) (p_rpp p) (p_rvv p) (p_chi p) (p_charge_ratio p) v (p_at_element_id p) (p_at_turn p) (p_state p).

(* particles.h: NS(Particles_set_at_element_id_value) *)
Definition set_at_element_id {T} (v : Z) (p : particle T) : particle T :=
  mkParticle (p_q0 p) (p_mass0 p) (p_beta0 p) (p_gamma0 p) (p_p0c p) (p_s p) (p_x p) (p_y p) (p_px p) (p_py p) (p_zeta p) (p_psigma p) (p_delta p) (p_rpp p) (p_rvv p) (p_chi p) (p_charge_ratio p) (p_particle_id p) v (p_at_turn p) (p_state p).

(* particles.h: NS(Particles_set_at_turn_value) *)
Definition set_at_turn {T} (v : Z) (p : particle T) : particle T :=
  mkParticle (p_q0 p) (p_mass0 p) (p_beta0 p) (p_gamma0 p) (p_p0c p) (p_s p) (p_x p) (p_y p) (p_px p) (p_py p) (p_zeta p) (p_psigma p) (p_delta p) (p_rpp p) (p_rvv p) (p_chi p) (p_charge_ratio p) (p_particle_id p) (p_at_element_id p) v (p_state p).

(* particles.h: NS(Particles_set_state_value) *)
Definition set_state {T} (v : Z) (p : particle T) : particle T :=
  mkParticle (p_q0 p) (p_mass0 p) (p_beta0 p) (p_gamma0 p) (p_p0c p) (p_s p) (p_x p) (p_y p) (p_px p) (p_py p) (p_zeta p) (p_psigma p) (p_delta p) (p_rpp p) (p_rvv p) (p_chi p) (p_charge_ratio p) (p_particle_id p) (p_at_element_id p) (p_at_turn p) v.

Lemma particle_eta : forall (T : Type) (p : particle T),
  p = mkParticle (p_q0 p) (p_mass0 p) (p_beta0 p) (p_gamma0 p) (p_p0c p) (p_s p) (p_x p) (p_y p) (p_px p) (p_py p) (p_zeta p) (p_psigma p) (p_delta p) (p_rpp p) (p_rvv p) (p_chi p) (p_charge_ratio p) (p_particle_id p) (p_at_element_id p) (p_at_turn p) (p_state p).
Proof. intros T p; destruct p; reflexivity. Qed.

(* particles.h 6529-6552: NS(Particles_is_not_lost_value), state == 1 *)
Definition is_not_lost {T} (p : particle T) : bool := Z.eqb (p_state p) 1.

(* particles.h 6506-6513: NS(Particles_mark_as_lost_value) *)
Definition mark_as_lost {T} (p : particle T) : particle T := set_state 0 p.

(* particles.h 6493-6504: NS(Particles_update_state_value_if_not_already_lost) *)
Definition update_state_if_not_lost {T} (new_state : Z) (p : particle T) : particle T :=
  set_state (Z.land (p_state p) new_state) p.

(* particles.h: NS(Particles_increment_at_element_id_value) *)
Definition incr_at_element {T} (p : particle T) : particle T :=
  set_at_element_id (p_at_element_id p + 1)%Z p.

(* particles.h: NS(Particles_increment_at_turn_value) *)
Definition incr_at_turn {T} (p : particle T) : particle T :=
  set_at_turn (p_at_turn p + 1)%Z p.
