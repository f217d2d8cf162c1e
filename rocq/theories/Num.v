(* Abstract floating-point arithmetic.

   The element maps of SixTrackLib compute with `SIXTRL_REAL_T` (double by
   default, sixtracklib/common/definitions.h).  The model is parametric in the
   number type [T] and in its operations: a theorem proved for every [NumOps]
   holds bit for bit for IEEE doubles as well as for any other choice of
   SIXTRL_REAL_T, since no law about the operations is assumed.  Theorems of
   analysis use the instance [ROps] of MapsR.v. *)
From Coq Require Import ZArith.

Record NumOps (T : Type) := mkNumOps {
  nzero : T;                    (* literal 0.0 *)
  none_ : T;                    (* literal 1.0 *)
  nofZ  : Z -> T;               (* integer literal / conversion *)
  nadd  : T -> T -> T;
  nsub  : T -> T -> T;
  nmul  : T -> T -> T;
  ndiv  : T -> T -> T;
  nopp  : T -> T;
  nsqrt : T -> T;               (* math.h sqrt *)
  nsin  : T -> T;               (* math.h sin *)
  ncos  : T -> T;               (* math.h cos *)
  nexp  : T -> T;               (* math.h exp *)
  nltb  : T -> T -> bool;       (* C operator <  *)
  nleb  : T -> T -> bool;       (* C operator <= *)
  npi   : T;                    (* SIXTRL_PI / MathConst_pi *)
  nclight : T;                  (* SIXTRL_C_LIGHT / PhysConst_clight *)
  ndeg2rad : T;                 (* MathConst_deg2rad, math_constants.h *)
  ncharge0 : T;                 (* PhysConst_charge0, physics_constants.h *)
  ncharge0_si : T;              (* PhysConst_charge0_si, physics_constants.h *)
  nqelem : T;                   (* SIXTRL_QELEM, constants.h *)
  nepsilon0 : T;                (* SIXTRL_EPSILON_0, constants.h *)
  nsqrtpi : T;                  (* SIXTRL_SQRT_PI, constants.h *)
  ndec  : Z -> Z -> T;          (* decimal literal m * 10^e *)
  nabs  : T -> T;               (* math.h fabs *)
  neqb  : T -> T -> bool;       (* C operator == *)
  nfloor : T -> T;              (* math.h floor *)
  ntruncZ : T -> option Z;      (* C conversion real -> int64; None = undefined
                                   (NaN or out of range) *)
  npow  : T -> T -> T           (* math.h pow *)
}.

Arguments nzero {T} _.
Arguments none_ {T} _.
Arguments nofZ {T} _ _.
Arguments nadd {T} _ _ _.
Arguments nsub {T} _ _ _.
Arguments nmul {T} _ _ _.
Arguments ndiv {T} _ _ _.
Arguments nopp {T} _ _.
Arguments nsqrt {T} _ _.
Arguments nsin {T} _ _.
Arguments ncos {T} _ _.
Arguments nexp {T} _ _.
Arguments nltb {T} _ _ _.
Arguments nleb {T} _ _ _.
Arguments npi {T} _.
Arguments nclight {T} _.
Arguments ndeg2rad {T} _.
Arguments ncharge0 {T} _.
Arguments ncharge0_si {T} _.
Arguments nqelem {T} _.
Arguments nepsilon0 {T} _.
Arguments nsqrtpi {T} _.
Arguments ndec {T} _ _ _.
Arguments nabs {T} _ _.
Arguments neqb {T} _ _ _.
Arguments nfloor {T} _ _.
Arguments ntruncZ {T} _ _.
Arguments npow {T} _ _ _.

Declare Scope num_scope.
