(* Theorems for C48: the kicks of an RF multipole. *)
From Coq Require Import ZArith Reals Lra Lia Bool.
From Coquelicot Require Import Coquelicot.
From Verif Require Import Num Particle Energy Elements Track MapsR OpticsSpec OpticsProofs MultipoleProofs RfSpec RfProofs PropertiesOptics.
From Coq Require Import List.
Import ListNotations.
Local Open Scope R_scope.

(* The transverse kicks are minus chi times the gradient of the potential at the arrival time
   of the particle; the position is not changed. *)
Theorem C48_transverse : forall c order voltage frequency lag ba phases p outs,
  let k := 2 * PI * frequency / 299792458 in
  let tau := p_zeta p / (p_beta0 p * p_rvv p) in
  let U := rf_potential ba phases order k in
  exists q ux uy,
    dispatch ROps c (BRFMultipole order voltage frequency lag ba phases) p outs = Some (q, outs, 0%Z) /\
    is_derive (fun t : R => U t (p_y p) tau) (p_x p) ux /\
    is_derive (fun t : R => U (p_x p) t tau) (p_y p) uy /\
    p_px q = p_px p - p_chi p * ux /\ p_py q = p_py p - p_chi p * uy /\
    p_x q = p_x p /\ p_y q = p_y p /\ p_s q = p_s p /\ p_state q = p_state p.
Proof.
  intros c o v f lag ba ph p outs k tau U.
  exists (track_rfmultipole ROps o v f lag ba ph p). eexists. eexists.
  split; [reflexivity|]. split; [apply potential_dx|]. split; [apply potential_dy|].
  rewrite track_rf_is. fold k. fold tau. unfold add_to_energy. pfields.
  repeat split. ring.
Qed.
Print Assumptions C48_transverse.

(* The energy changes by that of a cavity, and by - q p0c times the sum of (n+1) times the
   rate of change in tau of the n-th component of the potential. *)
Theorem C48_energy : forall order voltage frequency lag ba phases p P E w,
  let k := 2 * PI * frequency / 299792458 in
  let tau := p_zeta p / (p_beta0 p * p_rvv p) in
  let charge := p_q0 p * p_charge_ratio p in
  (forall n, (n <= order)%nat ->
     is_derive (fun t : R => rf_component ba phases k n (p_x p) (p_y p) t) tau (w n)) ->
  let dE := charge * voltage * sin (rad lag - k * tau)
            - charge * p_p0c p * sum_n (fun n => INR (n + 1) * w n) order in
  good_reference p -> describes p P E -> p_mass0 p < E + dE ->
  let q := track_rfmultipole ROps order voltage frequency lag ba phases p in
  describes q (sqrt ((E + dE) ^ 2 - p_mass0 p ^ 2)) (E + dE) /\ p_zeta q / p_rvv q = p_zeta p / p_rvv p.
Proof.
  intros o v f lag ba ph p P E w k tau ch Hw dE Hg Hd Hm q.
  unfold q. rewrite track_rf_is. fold k. fold tau. fold ch.
  assert (Ew : sum_n (fun n => INR (n + 1) * w n) o = k * sum_n (tt_ ba ph (p_x p) (p_y p) (k * tau)) o).
  { rewrite <- sum_n_scal. apply sum_n_ext_loc. intros n Hn.
    assert (INR (n + 1) <> 0) by (apply not_0_INR; lia).
    pose proof (is_derive_unique _ _ _ (Hw n Hn)) as E1.
    pose proof (is_derive_unique _ _ _ (component_dtau ba ph k n (p_x p) (p_y p) tau)) as E2.
    rewrite E1 in E2. rewrite E2. match goal with |- ?u = ?v => change (@eq R u v) end. field. auto. }
  rewrite <- Ew.
  match goal with |- context [add_to_energy ROps ?d _] =>
    replace d with dE by (unfold dE, Rminus; f_equal; ring) end.
  match goal with |- context [add_to_energy ROps dE ?p1] => set (p1_ := p1) end.
  assert (Hd1 : describes p1_ P E) by (destruct Hd; constructor; assumption).
  destruct (add_energy_ok p1_ P E dE Hg Hd1 Hm) as (A & B & _).
  split; [exact A|exact B].
Qed.
Print Assumptions C48_energy.

(* For an RF dipole kick (order 0) all three kicks derive from the one potential. *)
Theorem C48_one_potential_partial : forall voltage frequency lag ba phases p P E ut,
  let k := 2 * PI * frequency / 299792458 in
  let tau := p_zeta p / (p_beta0 p * p_rvv p) in
  let charge := p_q0 p * p_charge_ratio p in
  is_derive (fun t : R => rf_potential ba phases 0 k (p_x p) (p_y p) t) tau ut ->
  let dE := charge * voltage * sin (rad lag - k * tau) - charge * p_p0c p * ut in
  good_reference p -> describes p P E -> p_mass0 p < E + dE ->
  let q := track_rfmultipole ROps 0 voltage frequency lag ba phases p in
  describes q (sqrt ((E + dE) ^ 2 - p_mass0 p ^ 2)) (E + dE).
Proof.
  intros v f lag ba ph p P E ut k tau ch Hu dE Hg Hd Hm q.
  pose proof (C48_energy 0 v f lag ba ph p P E (fun _ => ut)) as G. cbv zeta in G.
  fold k in G. fold tau in G. fold ch in G.
  rewrite sum_O in G. change (INR (0 + 1) * ut) with (1 * ut) in G. rewrite Rmult_1_l in G. fold dE in G.
  apply G; auto.
  intros n Hn. replace n with 0%nat by lia.
  eapply is_derive_ext; [|exact Hu]. intros t. unfold rf_potential. now rewrite sum_O.
Qed.
Print Assumptions C48_one_potential_partial.

(* From order 1 on they do not: the energy kick is not the change in time of the potential
   that gives the transverse kicks. *)
Theorem C48_one_potential_refuted : exists order voltage frequency lag ba phases p P E ut,
  let k := 2 * PI * frequency / 299792458 in
  let tau := p_zeta p / (p_beta0 p * p_rvv p) in
  let charge := p_q0 p * p_charge_ratio p in
  let dE := charge * voltage * sin (rad lag - k * tau) - charge * p_p0c p * ut in
  let q := track_rfmultipole ROps order voltage frequency lag ba phases p in
  good_reference p /\ describes p P E /\ p_mass0 p < E + dE /\
  is_derive (fun t : R => rf_potential ba phases order k (p_x p) (p_y p) t) tau ut /\
  (exists P' E', describes q P' E') /\ forall P' E', describes q P' E' -> E' <> E + dE.
Proof.
  set (ba := [0; 0; 1; 0]). set (ph := [0; 0; 360 * (17 / 105) + 90; 0]).
  set (w := fun n : nat => if Nat.eqb n 1 then - 3 / 100 * PI else 0).
  exists 1%nat, 0, 299792458, 0, ba, ph, sample, (15/2), (17/2), (- 3 / 100 * PI).
  cbv zeta.
  replace (2 * PI * 299792458 / 299792458) with (2 * PI) by field.
  assert (Et : p_zeta sample / (p_beta0 sample * p_rvv sample) = 17 / 105) by (cbn [p_zeta p_beta0 p_rvv sample]; field).
  destruct sample_ok as (Hg & Hd).
  assert (Hw : forall n, (n <= 1)%nat ->
     is_derive (fun t : R => rf_component ba ph (2 * PI) n (p_x sample) (p_y sample) t) (17 / 105) (w n)).
  { intros n Hn. evar_last; [apply component_dtau|].
    unfold tt_, w. cbv zeta. destruct n as [|[|n]]; [| |lia].
    - cbn [Nat.eqb Nat.mul Nat.add nth ba]. unfold Rdiv. ring.
    - cbn [Nat.eqb Nat.mul Nat.add nth ba ph].
      replace (rad (360 * (17 / 105) + 90) - 2 * PI * (17 / 105)) with (PI / 2) by (unfold rad; field).
      rewrite sin_PI2. cbn [Cpow p_x p_y sample]. unfold Re, Im, Cmult, RtoC. cbn [fst snd INR]. field. }
  assert (Hs : sum_n w 1 = - 3 / 100 * PI) by (rewrite sum_Sn, sum_O; unfold w, plus; cbn -[PI Rdiv Rmult]; match goal with |- ?u = ?v => change (@eq R u v) end; lra).
  pose proof PI_RGT_0 as Hpi.
  assert (Hu : is_derive (fun t : R => rf_potential ba ph 1 (2 * PI) (p_x sample) (p_y sample) t) (17 / 105) (- 3 / 100 * PI)).
  { rewrite <- Hs. unfold rf_potential.
    apply (is_derive_sum_n (K := R_AbsRing) (fun n (t : R) => rf_component ba ph (2 * PI) n (p_x sample) (p_y sample) t)).
    exact Hw. }
  pose proof (C48_energy 1 0 299792458 0 ba ph sample (15/2) (17/2) w) as G. cbv zeta in G.
  replace (2 * PI * 299792458 / 299792458) with (2 * PI) in G by field.
  rewrite Et in *. specialize (G Hw Hg Hd).
  assert (Hs2 : sum_n (fun n => INR (n + 1) * w n) 1 = - 6 / 100 * PI)
    by (rewrite sum_Sn, sum_O; unfold w, plus; cbn -[PI Rdiv Rmult]; match goal with |- ?u = ?v => change (@eq R u v) end; lra).
  rewrite Hs2 in G. cbn [p_q0 p_charge_ratio p_p0c p_mass0 sample] in *.
  destruct G as (G & _); [lra|].
  split; [exact Hg|]. split; [exact Hd|]. split; [lra|]. split; [exact Hu|].
  split; [eexists; eexists; exact G|].
  intros P' E' H.
  assert (Hgq : good_reference (track_rfmultipole ROps 1 0 299792458 0 ba ph sample)).
  { rewrite track_rf_is. exact Hg. }
  destruct (describes_fun _ _ _ _ _ Hgq G H) as (_ & EE). rewrite <- EE. lra.
Qed.
Print Assumptions C48_one_potential_refuted.
