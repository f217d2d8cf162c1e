(* The settings the X_clear / X_preset / X_new functions give to beam elements. *)
From Coq Require Import ZArith List Bool.
From Verif Require Import Num Particle BeamFields Elements.
Import ListNotations.

Set Implicit Arguments.

Section Defaults.
Variable T : Type.
Variable N : NumOps T.

Notation "'#' z" := (nofZ N z) (at level 5).

(* the kinds of elements with default settings; for multipoles the order asked for *)
Inductive kind :=
| KDrift | KDriftExact | KMultipole (order : nat) | KRFMultipole (order : nat) | KCavity
| KXYShift | KSRotation | KMonitor | KLimitRect | KLimitEllipse | KLimitRectEllipse
| KDipoleEdge | KSCCoasting
| KSCQGauss (min_sigma_diff cq : T)  (* see below *)
| KSCInterpolated.

(* be_drift/be_drift.h 316-322, 455-461; be_multipole/be_multipole.h 353-366 and
   be_rfmultipole/be_rfmultipole.h 447-466 (the strengths and phases of Multipole_new and
   RFMultipole_new are zero); be_cavity/be_cavity.h 218-227; be_xyshift/be_xyshift.h
   191-197; be_srotation/be_srotation.h 244-251; be_monitor/be_monitor.h 481-500;
   be_limit/be_limit_rect.h 220-236; be_limit/be_limit_ellipse.h 214-220;
   be_limit/be_limit_rect_ellipse.h 247-268; be_limit/definitions.h 20-42;
   be_dipedge/be_dipedge.h 203-211; be_beamfields/be_beamfields.h 2398-2417, 2717-2742,
   3718-3755.  SCQGaussProfile_clear leaves min_sigma_diff as it was, and the value of
   cq is computed from q by a function that is not modelled: both are parameters. *)
Definition cleared (c : config T) (k : kind) : element T :=
  match k with
  | KDrift => BDrift (#0)
  | KDriftExact => BDriftExact (#0)
  | KMultipole order => BMultipole order (#0) (#0) (#0) (repeat (nzero N) (2 * order + 2))
  | KRFMultipole order =>
      BRFMultipole order (#0) (#0) (#0) (repeat (nzero N) (2 * order + 2)) (repeat (nzero N) (2 * order + 2))
  | KCavity => BCavity (#0) (#0) (#0)
  | KXYShift => BXYShift (#0) (#0)
  | KSRotation => BSRotation (#1) (#0)
  | KMonitor => BMonitor (mkMonitor 0 0 1 None (-1) (-1) false true)
  | KLimitRect => BLimitRect (nopp N (c_x_limit c)) (c_x_limit c) (nopp N (c_y_limit c)) (c_y_limit c)
  | KLimitEllipse =>
      let a := nmul N (c_x_limit c) (c_x_limit c) in
      let b := nmul N (c_y_limit c) (c_y_limit c) in BLimitEllipse a b (nmul N a b)
  | KLimitRectEllipse =>
      let a := nmul N (c_x_limit c) (c_x_limit c) in
      let b := nmul N (c_y_limit c) (c_y_limit c) in
      BLimitRectEllipse (c_x_limit c) (c_y_limit c) a b (nmul N a b)
  | KDipoleEdge => BDipoleEdge (#0) (#1)
  | KSCCoasting => BSCCoasting (mkSCCoasting (#0) (#1) (#1) (#1) (#0) (#0) (#0) (ndec N 1 (-10)) 1)
  | KSCQGauss msd cq => BSCQGauss (mkSCQGauss (#0) (#1) (#1) (#1) (#0) (#0) (#0) msd (#1) cq 1)
  | KSCInterpolated =>
      BSCInterpolated (mkSCInterpolated (#0) (#1) (#1) (#0) (#0) (#0) None (#1) (ndec N 1 (-10)) 1)
  end.
End Defaults.
