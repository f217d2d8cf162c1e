(* What the properties C14-C17, C44 are about, independent of the code. *)
From Coq Require Import ZArith List.
From Verif Require Import Particle ParticleSet ParticleIds.
Import ListNotations.
Local Open Scope Z_scope.

Section S.
Context {T : Type}.

(* q is a particle of the set / of one of the sets in a buffer / of one of the listed
   sets of a buffer *)
Definition member (p : pset T) (q : particle T) : Prop := exists i, pset_at p i = Some q.
Definition member_buffer (objs : list (pobj T)) (q : particle T) : Prop :=
  exists p, In (Part p) objs /\ member p q.
Definition member_sets (objs : list (pobj T)) (idx : list Z) (q : particle T) : Prop :=
  exists i p, In i idx /\ aget objs i = Some (Part p) /\ member p q.

(* lo and hi are the smallest and the largest value of f on S, both attained *)
Definition range_of (S : particle T -> Prop) (f : particle T -> Z) (lo hi : Z) : Prop :=
  (forall q, S q -> lo <= f q <= hi) /\ (exists q, S q /\ f q = lo) /\ (exists q, S q /\ f q = hi).

(* the six values reported for the particles S: particle ids count without their sign *)
Definition ranges_of (S : particle T -> Prop) (m : minmax) : Prop :=
  range_of S (fun q => Z.abs (p_particle_id q)) (mm_min_pid m) (mm_max_pid m) /\
  range_of S (@p_at_element_id T) (mm_min_elem m) (mm_max_elem m) /\
  range_of S (@p_at_turn T) (mm_min_turn m) (mm_max_turn m).

(* the three attributes are int64 values whose absolute value is one too *)
Definition int64_values (S : particle T -> Prop) : Prop :=
  forall q, S q -> Z.abs (p_particle_id q) <= INT64_MAX /\
    Z.abs (p_at_element_id q) <= INT64_MAX /\ Z.abs (p_at_turn q) <= INT64_MAX.

(* no two positions of the set hold the same particle id up to sign *)
Definition distinct_ids (p : pset T) : Prop :=
  forall i j q r, pset_at p i = Some q -> pset_at p j = Some r ->
    Z.abs (p_particle_id q) = Z.abs (p_particle_id r) -> i = j.

(* every particle object of a buffer is a well-formed, non-empty set *)
Definition objs_wf (objs : list (pobj T)) : Prop :=
  forall p, In (Part p) objs -> pset_wf p.
End S.
