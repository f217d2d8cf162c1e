(* C66: the tests on bit patterns used for the parameters of new elements are the comparisons
   of IEEE-754 double precision numbers. *)
From Coq Require Import ZArith Bool Lia.
From Flocq Require Import IEEE754.BinarySingleNaN IEEE754.Binary IEEE754.Bits.
From Verif Require Import ElementAdd ElementAddSpec FloatTests.
Local Open Scope Z_scope.

(* nonneg is x >= 0.0, below3 is x < 3.0 (both false for NaN), minus is the change of sign *)
Theorem C66_float_tests : forall w, 0 <= w < 2 ^ 64 ->
  (nonneg w = true <->
     b64_compare (b64_of_bits w) (b64_of_bits 0) = Some Eq \/
     b64_compare (b64_of_bits w) (b64_of_bits 0) = Some Gt) /\
  (below3 w = true <-> b64_compare (b64_of_bits w) (b64_of_bits 0x4008000000000000) = Some Lt) /\
  (is_nan 53 1024 (b64_of_bits w) = false -> minus w = bits_of_b64 (b64_opp (b64_of_bits w))).
Proof.
  intros w H. split; [exact (nonneg_ok w H)|]. split; [exact (below3_ok w H)|]. exact (minus_ok w H).
Qed.
Print Assumptions C66_float_tests.

(* with the IEEE product, the assumption on the aperture limits holds for all limits but NaN *)
Theorem C66_limits_squared : forall cq x y,
  is_nan 53 1024 (b64_of_bits x) = false -> is_nan 53 1024 (b64_of_bits y) = false ->
  limits_squared (Floats (fun u v => bits_of_b64 (b64_mult mode_NE (b64_of_bits u) (b64_of_bits v))) cq x y).
Proof.
  intros cq x y Hx Hy. split; [exact (square_nonneg x Hx)|exact (square_nonneg y Hy)].
Qed.
Print Assumptions C66_limits_squared.

(* 1.0, -1.0, 2.5 and the numbers 0 and 3 themselves *)
Example C66_float_example :
  nonneg one = true /\ nonneg (minus one) = false /\ nonneg (minus zero) = true /\
  below3 0x4004000000000000 = true /\ below3 0x4008000000000000 = false /\ below3 (minus one) = true /\
  nonneg 0x7FF8000000000000 = false /\ below3 0x7FF8000000000000 = false /\
  is_nan 53 1024 (b64_of_bits one) = false.
Proof. repeat split; vm_compute; reflexivity. Qed.
