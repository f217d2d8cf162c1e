(* Concrete lines, particle sets and outputs for the examples and counterexamples on
   output. *)
From Coq Require Import ZArith List Bool.
From Verif Require Import Num Particle Elements EbeConfig Track ParticleSet ParticleSetProofs ParticleIds
  Output ExampleNum.
Import ListNotations.
Local Open Scope Z_scope.

(* [rolling] monitor of particles lo .. hi with n stores from turn start, every skip turns *)
Definition mon (n start skip lo hi : Z) (rolling ordered : bool) (k : option nat) : monitor :=
  mkMonitor n start skip k hi lo rolling ordered.

Definition zset (n : nat) : list (particle Z) := repeat (set_particle_id (-1) zpart) n.
Definition always_room (_ : outsets Z) (_ : Z) : bool := true.
Definition zblank : particle Z := set_particle_id (-1) zpart.

(* two particles, ids 7 and 8 *)
Definition zpart8 : particle Z := set_particle_id 8 zpart.
Definition zobjs : list (pobj Z) := [Part (pset_of [zpart; zpart8])].
(* the same, at turn 5 *)
Definition zobjs5 : list (pobj Z) := [Part (pset_of [set_at_turn 5 zpart; set_at_turn 5 zpart8])].

Definition zline (m : monitor) : list (element Z) := [BDrift 2; BMonitor m; BXYShift 1 1].
