(* Specification of the kicks of an RF multipole (C48). *)
From Coq Require Import ZArith Reals List.
From Coquelicot Require Import Coquelicot.
From Verif Require Import OpticsSpec.
Import ListNotations.
Local Open Scope R_scope.

(* angle in degrees to radians *)
Definition rad (deg : R) : R := PI * deg / 180.

(* contribution of the component of index [n] to the potential at (x, y) and arrival time
   [tau] (in metres): normal strength b_n, skew strength a_n (both divided by n!), each with
   its own phase, oscillating with wave number [k] *)
Definition rf_component (ba phases : list R) (k : R) (n : nat) (x y tau : R) : R :=
  (nth (2 * n) ba 0 * cos (rad (nth (2 * n) phases 0) - k * tau) * Re (Cpow (x, y) (n + 1))
   - nth (2 * n + 1) ba 0 * cos (rad (nth (2 * n + 1) phases 0) - k * tau) * Im (Cpow (x, y) (n + 1)))
  / INR (n + 1).

Definition rf_potential (ba phases : list R) (order : nat) (k x y tau : R) : R :=
  sum_n (fun n => rf_component ba phases k n x y tau) order.
