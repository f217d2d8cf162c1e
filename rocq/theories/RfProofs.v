(* Proofs about RF multipoles (C48). *)
From Coq Require Import ZArith Reals Lra Lia Bool.
From Coquelicot Require Import Coquelicot.
From Verif Require Import Num Particle Energy Elements MapsR OpticsSpec OpticsProofs MultipoleProofs RfSpec.
From Coq Require Import List.
Import ListNotations.
Local Open Scope R_scope.

Section Loop.
Variables (ba ph : list R) (x y ktau : R).
Let cn n := cos (rad (nth (2 * n) ph 0) - ktau).
Let cs n := cos (rad (nth (2 * n + 1) ph 0) - ktau).
Let sn n := sin (rad (nth (2 * n) ph 0) - ktau).
Let ss n := sin (rad (nth (2 * n + 1) ph 0) - ktau).
Let bn n := nth (2 * n) ba 0.
Let bs n := nth (2 * n + 1) ba 0.

Definition tx n : R := cn n * bn n * Re (Cpow (x, y) n) - cs n * bs n * Im (Cpow (x, y) n).
Definition ty n : R := cs n * bs n * Re (Cpow (x, y) n) + cn n * bn n * Im (Cpow (x, y) n).
Definition tt_ n : R := sn n * bn n * Re (Cpow (x, y) (n + 1)) - ss n * bs n * Im (Cpow (x, y) (n + 1)).

Lemma rfm_loop : forall m,
  fold_left (fun st kk => rfm_step ROps ba ph x y ktau kk st) (seq 0 (m + 1)) (0, 0, 0, 1, 0)
  = (sum_n tx m, sum_n ty m, sum_n tt_ m, Re (Cpow (x, y) (m + 1)), Im (Cpow (x, y) (m + 1))).
Proof.
  assert (step : forall m a b c,
    rfm_step ROps ba ph x y ktau m (a, b, c, Re (Cpow (x, y) m), Im (Cpow (x, y) m)) =
    (a + tx m, b + ty m, c + tt_ m, Re (Cpow (x, y) (m + 1)), Im (Cpow (x, y) (m + 1)))).
  { intros m a b c. unfold rfm_step, bal_at, tx, ty, tt_, cn, cs, sn, ss, bn, bs, rad. rops.
    replace (m + 1)%nat with (S m) by lia. cbn [Cpow].
    replace (Re ((x, y) * Cpow (x, y) m)%C) with (Re (Cpow (x, y) m) * x - Im (Cpow (x, y) m) * y)
      by (unfold Re, Im, Cmult; cbn [fst snd]; ring).
    replace (Im ((x, y) * Cpow (x, y) m)%C) with (Im (Cpow (x, y) m) * x + Re (Cpow (x, y) m) * y)
      by (unfold Re, Im, Cmult; cbn [fst snd]; ring).
    replace (PI / 180 * nth (2 * m) ph 0 - ktau) with (PI * nth (2 * m) ph 0 / 180 - ktau) by field.
    replace (PI / 180 * nth (2 * m + 1) ph 0 - ktau) with (PI * nth (2 * m + 1) ph 0 / 180 - ktau) by field.
    repeat (f_equal; try ring). }
  induction m.
  - change (seq 0 (0 + 1)) with [0%nat]. cbn [fold_left].
    pose proof (step 0%nat 0 0 0) as S0.
    change (Re (Cpow (x, y) 0)) with 1 in S0. change (Im (Cpow (x, y) 0)) with 0 in S0.
    rewrite S0, !sum_O, !Rplus_0_l. reflexivity.
  - replace (seq 0 (S m + 1)) with (seq 0 (m + 1) ++ [S m]).
    + rewrite fold_left_app, IHm. cbn [fold_left]. replace (m + 1)%nat with (S m) by lia.
      rewrite step, !sum_Sn. unfold plus; cbn -[Cpow]. replace (S m + 1)%nat with (m + 1 + 1)%nat by lia.
      reflexivity.
    + replace (S m + 1)%nat with (m + 1 + 1)%nat by lia.
      rewrite (seq_app (m + 1) 1). f_equal. cbn [seq]. f_equal. lia.
Qed.
End Loop.

Lemma component_dx : forall ba ph k n x y tau,
  is_derive (fun t : R => rf_component ba ph k n t y tau) x (tx ba ph x y (k * tau) n).
Proof.
  intros. unfold rf_component, tx. cbv zeta. replace (n + 1)%nat with (S n) by lia.
  destruct (pow_derive_x n x y) as (H1 & H2). unfold Re, Im.
  assert (INR (S n) <> 0) by (apply not_0_INR; lia).
  set (A := nth (2 * n) ba 0 * cos (rad (nth (2 * n) ph 0) - k * tau)).
  set (B := nth (2 * n + 1) ba 0 * cos (rad (nth (2 * n + 1) ph 0) - k * tau)).
  apply is_derive_ext with (f := fun t : R => (A / INR (S n)) * fst (Cpow (t, y) (S n)) - (B / INR (S n)) * snd (Cpow (t, y) (S n))).
  { intros t. match goal with |- ?u = ?v => change (@eq R u v) end. field. auto. }
  evar_last.
  - apply (is_derive_minus (fun t : R => (A / INR (S n)) * fst (Cpow (t, y) (S n))) (fun t : R => (B / INR (S n)) * snd (Cpow (t, y) (S n)))).
    + apply is_derive_scal. exact H1.
    + apply is_derive_scal. exact H2.
  - unfold minus, plus, opp; cbn -[Cpow INR Nat.mul]. unfold A, B. field. auto.
Qed.

Lemma component_dy : forall ba ph k n x y tau,
  is_derive (fun t : R => rf_component ba ph k n x t tau) y (- ty ba ph x y (k * tau) n).
Proof.
  intros. unfold rf_component, ty. cbv zeta. replace (n + 1)%nat with (S n) by lia.
  destruct (pow_derive_y n x y) as (H1 & H2). unfold Re, Im.
  assert (INR (S n) <> 0) by (apply not_0_INR; lia).
  set (A := nth (2 * n) ba 0 * cos (rad (nth (2 * n) ph 0) - k * tau)).
  set (B := nth (2 * n + 1) ba 0 * cos (rad (nth (2 * n + 1) ph 0) - k * tau)).
  apply is_derive_ext with (f := fun t : R => (A / INR (S n)) * fst (Cpow (x, t) (S n)) - (B / INR (S n)) * snd (Cpow (x, t) (S n))).
  { intros t. match goal with |- ?u = ?v => change (@eq R u v) end. field. auto. }
  evar_last.
  - apply (is_derive_minus (fun t : R => (A / INR (S n)) * fst (Cpow (x, t) (S n))) (fun t : R => (B / INR (S n)) * snd (Cpow (x, t) (S n)))).
    + apply is_derive_scal. exact H1.
    + apply is_derive_scal. exact H2.
  - unfold minus, plus, opp; cbn -[Cpow INR Nat.mul]. unfold A, B. field. auto.
Qed.

Lemma component_dtau : forall ba ph k n x y tau,
  is_derive (fun t : R => rf_component ba ph k n x y t) tau (k * tt_ ba ph x y (k * tau) n / INR (n + 1)).
Proof.
  intros. unfold rf_component, tt_. cbv zeta.
  assert (INR (n + 1) <> 0) by (apply not_0_INR; lia).
  generalize dependent (INR (n + 1)). intros d Hd.
  generalize (Re (Cpow (x, y) (n + 1))) (Im (Cpow (x, y) (n + 1))). intros u v.
  generalize (nth (2 * n) ba 0) (nth (2 * n + 1) ba 0) (nth (2 * n) ph 0) (nth (2 * n + 1) ph 0). intros b1 b2 p1 p2.
  auto_derive; [auto|]. unfold Rminus. field. auto.
Qed.

Lemma sum_n_opp : forall (f : nat -> R) m, sum_n (fun n => - f n) m = - sum_n f m.
Proof. intros. induction m; [now rewrite !sum_O|]. rewrite !sum_Sn, IHm. unfold plus; cbn. ring. Qed.
Lemma sum_n_scal : forall (f : nat -> R) c m, sum_n (fun n => c * f n) m = c * sum_n f m.
Proof. intros. induction m; [now rewrite !sum_O|]. rewrite !sum_Sn, IHm. unfold plus; cbn. ring. Qed.

Lemma potential_dx : forall ba ph o k x y tau,
  is_derive (fun t : R => rf_potential ba ph o k t y tau) x (sum_n (tx ba ph x y (k * tau)) o).
Proof.
  intros. unfold rf_potential.
  apply (is_derive_sum_n (K := R_AbsRing) (fun n (t : R) => rf_component ba ph k n t y tau)).
  intros n _. apply component_dx.
Qed.
Lemma potential_dy : forall ba ph o k x y tau,
  is_derive (fun t : R => rf_potential ba ph o k x t tau) y (- sum_n (ty ba ph x y (k * tau)) o).
Proof.
  intros. unfold rf_potential. rewrite <- sum_n_opp.
  apply (is_derive_sum_n (K := R_AbsRing) (fun n (t : R) => rf_component ba ph k n x t tau)).
  intros n _. apply component_dy.
Qed.

(* the whole map *)
Lemma track_rf_is : forall o v f lag ba ph p,
  let k := 2 * PI * f / 299792458 in
  let tau := p_zeta p / (p_beta0 p * p_rvv p) in
  track_rfmultipole ROps o v f lag ba ph p =
  add_to_energy ROps
    (p_q0 p * p_charge_ratio p * (v * sin (rad lag - k * tau))
     - p_q0 p * p_charge_ratio p * p_p0c p * (k * sum_n (tt_ ba ph (p_x p) (p_y p) (k * tau)) o))
    (set_py (p_py p + p_chi p * sum_n (ty ba ph (p_x p) (p_y p) (k * tau)) o)
      (set_px (p_px p - p_chi p * sum_n (tx ba ph (p_x p) (p_y p) (k * tau)) o) p)).
Proof.
  intros o v f lag ba ph p k tau. unfold track_rfmultipole.
  assert (Ek : f * (2 * PI) / 299792458 = k) by (unfold k; field).
  rops. rewrite Ek.
  assert (Et : k * p_zeta p / (p_beta0 p * p_rvv p) = k * tau) by (unfold tau, Rdiv; ring).
  rewrite Et. rewrite rfm_loop. cbv beta iota. pfields.
  f_equal.
  - replace (lag * (PI / 180) - k * tau) with (rad lag - k * tau) by (unfold rad; field). ring.
  - f_equal. f_equal. ring.
Qed.
