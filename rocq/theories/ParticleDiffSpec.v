(* What comparing particle sets should give: the attributes of a particle, differences, and the
   values with the largest absolute value. *)
From Coq Require Import ZArith Reals List.
From Verif Require Import Num Particle ParticleSet ParticleIds.
Import ListNotations.
Local Open Scope Z_scope.

Section S.
Variable T : Type.

(* the 17 real and the 4 integer attributes, in the order in which indices are reported *)
Definition real_attributes : list (particle T -> T) :=
  [@p_q0 T; @p_beta0 T; @p_mass0 T; @p_gamma0 T; @p_p0c T; @p_s T; @p_x T; @p_y T; @p_px T; @p_py T; @p_zeta T;
   @p_psigma T; @p_delta T; @p_rpp T; @p_rvv T; @p_chi T; @p_charge_ratio T].
Definition index_attributes : list (particle T -> Z) :=
  [@p_particle_id T; @p_at_element_id T; @p_at_turn T; @p_state T].

(* every attribute of d is the difference of those of q and r *)
Definition difference (N : NumOps T) (q r d : particle T) : Prop :=
  Forall (fun f => f d = nsub N (f q) (f r)) real_attributes /\
  Forall (fun f => f d = f q - f r) index_attributes.

(* set d has, at each position, the difference of the particles of p1 and p2 *)
Definition differences (N : NumOps T) (p1 p2 d : pset T) : Prop :=
  pset_wf d /\ ps_num d = ps_num p1 /\
  forall i q r, pset_at p1 i = Some q -> pset_at p2 i = Some r ->
    exists x, pset_at d i = Some x /\ difference N q r x.

(* the number of particles of an object *)
Definition size_of (o : pobj T) : Z := match o with Part p => ps_num p | Other => 0 end.
Definition is_set (o : pobj T) : Prop := exists p, o = Part p.
End S.
Arguments real_attributes {T}.
Arguments index_attributes {T}.
Arguments difference {T}.
Arguments differences {T}.
Arguments size_of {T}.
Arguments is_set {T}.

(* v is the value of attribute f of particle number k of p; no particle before number n has
   a value with a larger absolute value ([size]), and none before number k has one as large *)
Definition largest {T A} (size : A -> R) (p : pset T) (n : Z) (f : particle T -> A) (v : A) (k : Z) : Prop :=
  0 <= k < n /\ (exists q, pset_at p k = Some q /\ f q = v) /\
  forall j q, pset_at p j = Some q -> j < n ->
    (size (f q) <= size v)%R /\ (j < k -> (size (f q) < size v)%R).
Definition size_real (v : R) : R := Rabs v.
Definition size_index (v : Z) : R := IZR (Z.abs v).
