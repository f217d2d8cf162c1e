(* The number operations over the real numbers of the standard library, used for the
   theorems about physics and algebra: rounding is not modelled. *)
From Coq Require Import ZArith Reals Lra Lia Bool.
From Verif Require Import Num Particle.
Local Open Scope R_scope.

Definition Rltb (a b : R) : bool := if Rlt_dec a b then true else false.
Definition Rleb (a b : R) : bool := if Rle_dec a b then true else false.
Definition Reqb (a b : R) : bool := if Req_EM_T a b then true else false.

Definition Rfloor (x : R) : R := IZR (Int_part x).

(* C conversion to a 64 bit integer: rounds towards zero, undefined out of range *)
Definition RtruncZ (x : R) : option Z :=
  if Rlt_dec (Rabs x) (IZR (2 ^ 63)) then
    Some (if Rle_dec 0 x then Int_part x else (- Int_part (- x))%Z)
  else None.

(* decimal literal m * 10^e *)
Definition Rdec (m e : Z) : R := IZR m * powerRZ 10 e.

(* [npow] is only used with a positive base and is [Rpower] there.  The physical
   constants are the decimal literals of internal/physics_constants.h and constants.h. *)
Definition ROps : NumOps R := {|
  nzero := 0; none_ := 1; nofZ := IZR;
  nadd := Rplus; nsub := Rminus; nmul := Rmult; ndiv := Rdiv; nopp := Ropp;
  nsqrt := sqrt; nsin := sin; ncos := cos; nexp := exp;
  nltb := Rltb; nleb := Rleb;
  npi := PI; nclight := 299792458; ndeg2rad := PI / 180;
  ncharge0 := 1; ncharge0_si := Rdec 1602176634 (-28);
  nqelem := Rdec 160217662 (-27); nepsilon0 := Rdec 8854187817620 (-24); nsqrtpi := sqrt PI;
  ndec := Rdec; nabs := Rabs; neqb := Reqb; nfloor := Rfloor; ntruncZ := RtruncZ;
  npow := Rpower |}.

Lemma Rltb_true : forall a b, Rltb a b = true <-> a < b.
Proof. intros. unfold Rltb. destruct (Rlt_dec a b); split; intros; auto; lra || discriminate. Qed.
Lemma Rleb_true : forall a b, Rleb a b = true <-> a <= b.
Proof. intros. unfold Rleb. destruct (Rle_dec a b); split; intros; auto; lra || discriminate. Qed.
Lemma Rltb_false : forall a b, Rltb a b = false <-> b <= a.
Proof. intros. unfold Rltb. destruct (Rlt_dec a b); split; intros; auto; lra || discriminate. Qed.
Lemma Rleb_false : forall a b, Rleb a b = false <-> b < a.
Proof. intros. unfold Rleb. destruct (Rle_dec a b); split; intros; auto; lra || discriminate. Qed.

(* replace the operations of [ROps] by those of the reals *)
Ltac rops := cbn [nzero none_ nofZ nadd nsub nmul ndiv nopp nsqrt nsin ncos nexp nltb nleb npi nclight
  ndeg2rad ncharge0 ncharge0_si nqelem nepsilon0 nsqrtpi ndec nabs neqb nfloor ntruncZ npow ROps] in *.

(* reduce projections of updated particles *)
Ltac pfields := cbn [p_q0 p_mass0 p_beta0 p_gamma0 p_p0c p_s p_x p_y p_px p_py p_zeta p_psigma p_delta p_rpp
  p_rvv p_chi p_charge_ratio p_particle_id p_at_element_id p_at_turn p_state
  set_q0 set_mass0 set_beta0 set_gamma0 set_p0c set_s set_x set_y set_px set_py set_zeta set_psigma set_delta
  set_rpp set_rvv set_chi set_charge_ratio set_particle_id set_at_element_id set_at_turn set_state] in *.

(* the same for equations between particles: all updates of a known particle *)
Ltac pupdate := cbv beta iota zeta delta [p_q0 p_mass0 p_beta0 p_gamma0 p_p0c p_s p_x p_y p_px p_py p_zeta
  p_psigma p_delta p_rpp p_rvv p_chi p_charge_ratio p_particle_id p_at_element_id p_at_turn p_state
  set_q0 set_mass0 set_beta0 set_gamma0 set_p0c set_s set_x set_y set_px set_py set_zeta set_psigma set_delta
  set_rpp set_rvv set_chi set_charge_ratio set_particle_id set_at_element_id set_at_turn set_state].
Ltac pext p := destruct p; pupdate; rops; f_equal.
