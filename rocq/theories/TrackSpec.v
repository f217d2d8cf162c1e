(* Specification of tracking, independent of the loops of Track.v: which states a
   particle goes through.  [arrives bes start zero p0 o0 t j q o] : a particle that
   starts as p0 with memory o0 arrives in front of element number j of turn t
   in state q, the memory being o then. *)
From Coq Require Import ZArith List Bool.
From Verif Require Import Num Particle.
Import ListNotations.

Set Implicit Arguments.

Section Spec.
Variables (T E M : Type).
Variable zero : T.
Variable disp : E -> particle T -> M -> option (particle T * M * Z).
Variable bes : list E.                 (* the lattice *)
Variables (p0 : particle T) (o0 : M).  (* initial particle and memory *)

Inductive arrives : Z -> nat -> particle T -> M -> Prop :=
| arrives_start : arrives (p_at_turn p0) 0 p0 o0
| arrives_next : forall t j q o be q' o',
    arrives t j q o ->
    nth_error bes j = Some be ->
    disp be q o = Some (q', o', 0%Z) ->
    p_state q' = 1%Z ->
    arrives t (S j) (set_at_element_id (p_at_element_id q' + 1) q') o'
| arrives_turn : forall t q o,
    arrives t (length bes) q o ->
    arrives (t + 1) 0
      (set_s zero (set_at_turn (p_at_turn q + 1)
                     (set_at_element_id (p_at_element_id p0) q))) o.

(* the particle stops in front of element j of turn t: the element fails or the
   particle is lost in it; q' is the particle after the element *)
Definition stops (t : Z) (j : nat) (q' : particle T) (o' : M) (st : Z) : Prop :=
  exists q o be, arrives t j q o /\ nth_error bes j = Some be /\
    disp be q o = Some (q', o', st) /\ (st <> 0%Z \/ p_state q' <> 1%Z).

End Spec.

(* Elements never touch a particle's id, element counter and turn counter. *)
Definition keeps_ids {T E M} (disp : E -> particle T -> M -> option (particle T * M * Z)) : Prop :=
  forall be p o p' o' st, disp be p o = Some (p', o', st) ->
    p_particle_id p' = p_particle_id p /\
    p_at_element_id p' = p_at_element_id p /\
    p_at_turn p' = p_at_turn p.
