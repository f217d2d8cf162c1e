(* Specification vocabulary for C37. *)
From Coq Require Import ZArith Reals List.
From Coquelicot Require Import Coquelicot.
From Verif Require Import Num Elements MapsR OpticsSpec Strengths.
Import List ListNotations.
Local Open Scope R_scope.

(* a multipole with its coefficient array in place *)
Definition complete (m : mpole R) : Prop :=
  (0 <= m_order m < 2 ^ 62)%Z /\
  exists b, m_bal m = Some b /\ Z.of_nat (length b) = (2 * m_order m + 2)%Z.

Definition rf_complete (m : rfm R) : Prop :=
  (0 <= rf_order m < 2 ^ 62)%Z /\
  Z.of_nat (length (rf_bal m)) = (2 * rf_order m + 2)%Z /\
  Z.of_nat (length (rf_phase m)) = (2 * rf_order m + 2)%Z.

(* two multipoles agree but for the coefficients *)
Definition same_but_bal (m m' : mpole R) : Prop :=
  m_order m' = m_order m /\ m_length m' = m_length m /\ m_hxl m' = m_hxl m /\ m_hyl m' = m_hyl m.

(* the field of normal strengths kn and skew strengths ks:
   sum of (kn_n + i ks_n) / n! * (x + i y)^n *)
Definition field (kn ks : list R) (order : nat) (x y : R) : C :=
  sum_n (fun n => Cmult (nth n kn 0 / INR (fact n), nth n ks 0 / INR (fact n)) (Cpow (x, y) n)) order.
