(* IEEE-754 binary64 arithmetic as an instance of the number interface.

   SIXTRL_REAL_T is double by default (sixtracklib/common/definitions.h).  The
   basic operations, comparisons, fabs, floor, sqrt and conversions are those of
   the Flocq library's binary64 numbers, rounding to nearest-even.  The quiet
   and payload bits of NaNs are not represented: Flocq's BinarySingleNaN has one
   NaN, which is all that comparisons can observe.

   The functions sin, cos, exp, pow and the decimal constants are left open: they
   are taken from an arbitrary [L], and every theorem holds for all choices. *)
From Coq Require Import ZArith Bool.
From Flocq Require Import IEEE754.BinarySingleNaN.
From Verif Require Import Num.

Local Open Scope Z_scope.

Definition prec64 : Z := 53.
Definition emax64 : Z := 1024.
Definition prec64_gt_0 : Flocq.Core.FLX.Prec_gt_0 prec64 := eq_refl.
Definition prec64_lt_emax : Prec_lt_emax prec64 emax64 := eq_refl.
#[global] Existing Instance prec64_gt_0.
#[global] Existing Instance prec64_lt_emax.

Definition binary64 : Type := binary_float prec64 emax64.

(* conversion of an integer, definitions.h: ( real_t )i *)
Definition b64_ofZ (z : Z) : binary64 :=
  binary_normalize prec64 emax64 prec64_gt_0 prec64_lt_emax mode_NE z 0 false.

(* conversion to int64_t: undefined for NaN, infinities and values whose
   integral part does not fit *)
Definition b64_truncZ (x : binary64) : option Z :=
  match x with
  | B754_nan | B754_infinity _ => None
  | _ => let z := Btrunc x in
         if (- 2 ^ 63 <=? z) && (z <? 2 ^ 63) then Some z else None
  end.

Definition B64Ops (L : NumOps binary64) : NumOps binary64 := {|
  nzero := b64_ofZ 0;
  none_ := b64_ofZ 1;
  nofZ := b64_ofZ;
  nadd := Bplus mode_NE;
  nsub := Bminus mode_NE;
  nmul := Bmult mode_NE;
  ndiv := Bdiv mode_NE;
  nopp := Bopp;
  nsqrt := Bsqrt mode_NE;
  nsin := nsin L;
  ncos := ncos L;
  nexp := nexp L;
  nltb := Bltb;
  nleb := Bleb;
  npi := npi L;
  nclight := nclight L;
  ndeg2rad := ndeg2rad L;
  ncharge0 := ncharge0 L;
  ncharge0_si := ncharge0_si L;
  nqelem := nqelem L;
  nepsilon0 := nepsilon0 L;
  nsqrtpi := nsqrtpi L;
  ndec := ndec L;
  nabs := Babs;
  neqb := Beqb;
  nfloor := Bnearbyint mode_DN;
  ntruncZ := b64_truncZ;
  npow := npow L
|}.
