(* Specification of symplecticity of transverse maps (C34). *)
From Coq Require Import ZArith Reals Bool List.
From Coquelicot Require Import Coquelicot.
From Verif Require Import Num Particle Elements Track MapsR.
Import ListNotations.
Local Open Scope R_scope.

(* transverse phase space: ((x, px), (y, py)) *)
Definition phase : Type := ((R * R) * (R * R))%type.

Definition phase_of (p : particle R) : phase := ((p_x p, p_px p), (p_y p, p_py p)).
Definition with_phase (v : phase) (p : particle R) : particle R :=
  set_x (fst (fst v)) (set_px (snd (fst v)) (set_y (fst (snd v)) (set_py (snd (snd v)) p))).

(* the symplectic form dx /\ dpx + dy /\ dpy *)
Definition omega (a b : phase) : R :=
  (fst (fst a) * snd (fst b) - snd (fst a) * fst (fst b)) +
  (fst (snd a) * snd (snd b) - snd (snd a) * fst (snd b)).

(* [M] is (Frechet) differentiable at [v] and its derivative preserves [omega] *)
Definition symplectic_at (M : phase -> phase) (v : phase) : Prop :=
  exists L : phase -> phase, filterdiff M (locally v) L /\ forall a b, omega (L a) (L b) = omega a b.

(* the elements of linear and non-linear optics; a rotation holds the cosine and the sine
   of one angle *)
Definition optical (be : element R) : Prop :=
  match be with
  | BDrift _ | BDriftExact _ | BMultipole _ _ _ _ _ | BDipoleEdge _ _ | BXYShift _ _ => True
  | BSRotation c s => c ^ 2 + s ^ 2 = 1
  | _ => False
  end.

(* an exact drift needs a particle that moves forward *)
Definition moves_forward (be : element R) (q : particle R) : Prop :=
  match be with
  | BDriftExact _ => p_px q ^ 2 + p_py q ^ 2 < (1 + p_delta q) ^ 2
  | _ => True
  end.

(* phase-space map of tracking: from the phase-space point at the start to the one at the
   end, all other attributes at the start being those of [p] *)
Definition tracked (c : config R) (lattice : list (element R)) (n : Z) (p : particle R) (outs : outsets R)
    (w : phase) : phase :=
  match until_turn ROps c lattice n (with_phase w p) outs with
  | Ok (q, _, _) => phase_of q
  | _ => w
  end.

(* the same for one element *)
Definition through (c : config R) (be : element R) (p : particle R) (outs : outsets R) (w : phase) : phase :=
  match dispatch ROps c be (with_phase w p) outs with
  | Some (q, _, _) => phase_of q
  | None => w
  end.
