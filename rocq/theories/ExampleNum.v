(* Concrete data used in the Examples that accompany the theorems: an integer
   instance of the number operations (so that examples can be computed) and a few
   particles and lattices.  Nothing here is part of the model. *)
From Coq Require Import ZArith List.
From Verif Require Import Num Particle Interp TriCub BeamFields Elements.
Import ListNotations.
Local Open Scope Z_scope.

Definition ZOps : NumOps Z := {|
  nzero := 0; none_ := 1; nofZ := fun z => z;
  nadd := Z.add; nsub := Z.sub; nmul := Z.mul; ndiv := Z.div; nopp := Z.opp;
  nsqrt := Z.sqrt; nsin := fun z => z; ncos := fun _ => 1; nexp := fun _ => 1;
  nltb := Z.ltb; nleb := Z.leb; npi := 3; nclight := 1; ndeg2rad := 1;
  ncharge0 := 1; ncharge0_si := 1; nqelem := 1; nepsilon0 := 1; nsqrtpi := 2;
  ndec := fun m e => m; nabs := Z.abs; neqb := Z.eqb; nfloor := fun z => z;
  ntruncZ := fun z => Some z; npow := fun a b => a |}.

Definition Zconf : config Z := {|
  c_aperture := AAlways; c_min_drift := None; c_x_limit := 1000; c_y_limit := 1000;
  c_tricub := MEnabled; c_bb4d := MEnabled; c_bb6d := MEnabled; c_sc := MEnabled |}.

(* an active particle with id 7 at element 0 of turn 0 *)
Definition zpart : particle Z :=
  mkParticle 1 938 1 7 6500 0  1 2 3 4  0 0 0 1 1 1 1  7 0 0 1.

Definition zlattice : list (element Z) :=
  [BDrift 2; BMultipole 1 0 0 0 [1; 0; 2; 1]; BXYShift 1 1; BLimitRect (-500) 500 (-500) 500].
