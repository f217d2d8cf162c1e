(* Specification of aperture checks (C29), independent of the model's maps. *)
From Coq Require Import ZArith Reals Bool.
From Flocq Require Import IEEE754.BinarySingleNaN.
From Verif Require Import Num Particle Elements Binary64.

(* [q] is what is left of [p] after an aperture that lets exactly the positions in
   [accept] pass: an active particle (state 1) stays active iff it is inside and is
   lost (state 0) otherwise, a lost one stays lost, and nothing but the state may
   differ. *)
Definition checked {T} (accept : T -> T -> Prop) (p q : particle T) : Prop :=
  q = set_state (p_state q) p /\
  (p_state p = 1%Z -> (p_state q = 1%Z <-> accept (p_x p) (p_y p)) /\
                      (p_state q = 0%Z <-> ~ accept (p_x p) (p_y p))) /\
  (p_state p = 0%Z -> p_state q = 0%Z).

(* Tracking [p] through [be] succeeds, keeps the output, and performs the check. *)
Definition performs {T} (N : NumOps T) (c : config T) (be : element T)
    (accept : T -> T -> Prop) : Prop :=
  forall p outs, exists q,
    dispatch N c be p outs = Some (q, outs, 0%Z) /\ checked accept p q.

Local Open Scope R_scope.

Definition closed_box (x0 x1 y0 y1 x y : R) : Prop :=
  x0 <= x <= x1 /\ y0 <= y <= y1.
Definition open_box (xl yl x y : R) : Prop := Rabs x < xl /\ Rabs y < yl.
(* closed ellipse with half axes a, b *)
Definition closed_ellipse (a b x y : R) : Prop := (x / a) ^ 2 + (y / b) ^ 2 <= 1.

(* doubles: real value and finiteness *)
Definition val (x : binary64) : R := B2R x.
Definition fin (x : binary64) : Prop := is_finite x = true.

(* numbers of moderate size: zero, or between 2^-250 and 2^250 in magnitude *)
Definition moderate (x : binary64) : Prop :=
  fin x /\ (val x = 0 \/ / 2 ^ 250 <= Rabs (val x) <= 2 ^ 250).
