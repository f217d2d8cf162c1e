(** Specification for the interpolated line densities (C38). *)
From Coq Require Import ZArith Reals List.
From Verif Require Import Interp.
Import ListNotations.
Local Open Scope R_scope.

(** Abscissa number [i] of an equidistant table. *)
Definition knot (x0 dx : R) (i : nat) : R := x0 + dx * INR i.

(** The straight line through two points, at [x]. *)
Definition chord (xa ya xb yb x : R) : R := ya + (x - xa) * ((yb - ya) / (xb - xa)).

(** What each end condition asks of the second derivative at the end ([m]) and at
    the neighbouring abscissa ([m1]); [p] is the parameter.  Not-a-knot is not
    described here (the code does not implement it). *)
Definition end_condition (b : boundary) (p m m1 : R) : Prop :=
  match b with
  | BNatural => m = 0
  | BClamped => m = p
  | BProportional => m = p * m1
  | BNotAKnot => False
  end.

(** Admissible end conditions. *)
Definition supported (b : boundary) (p : R) : Prop :=
  match b with
  | BNatural | BClamped => True
  | BProportional => -1 <= p
  | BNotAKnot => False
  end.
