From Coq Require Import ZArith Reals Lra Lia List Bool.
From Verif Require Import Num Elements ParticleSet DispatchProofs ParticleSetProofs MapsR Strengths.
Import ListNotations.
Local Open Scope Z_scope.

Lemma table_pos : forall n v, aget factorial_table n = Some v -> 1 <= v.
Proof.
  intros n v H. destruct (Z_lt_dec n 0); [rewrite aget_neg in H by lia; discriminate|].
  rewrite aget_nth in H by lia. apply nth_error_In in H.
  assert (F : Forall (fun v => 1 <= v) factorial_table) by (unfold factorial_table; repeat constructor; lia).
  rewrite Forall_forall in F. now apply F.
Qed.

Lemma table_none : forall n, 0 <= n -> aget factorial_table n = None -> 21 <= n.
Proof.
  intros n H0 H. destruct (Z_le_dec 21 n); auto. exfalso.
  destruct (aget_some _ factorial_table n) as [v Hv]; [cbn [length factorial_table]; lia|]. congruence.
Qed.

Lemma factorial_pos : forall n, 0 <= n -> (1 <= math_factorial ROps n)%R.
Proof.
  intros n Hn. unfold math_factorial. destruct (aget factorial_table n) as [v|] eqn:E.
  - apply table_pos in E. rops. now apply (IZR_le 1).
  - apply table_none in E; [|lia].
    assert (H1 : 1 <= n / 20) by (apply Z.div_le_lower_bound; lia).
    assert (R1 : (1 <= IZR (n / 20) * IZR 2432902008176640000)%R).
    { rewrite <- mult_IZR. apply (IZR_le 1). nia. }
    destruct (n mod 20 =? 0); rops; [exact R1|].
    destruct (aget factorial_table (n mod 20)) as [v|] eqn:E2.
    + apply table_pos in E2. apply (IZR_le 1) in E2. lra.
    + lra.
Qed.

Lemma factorial_neq0 : forall n, 0 <= n -> (math_factorial ROps n <> 0)%R.
Proof. intros n H. pose proof (factorial_pos n H). lra. Qed.

Lemma fact_step : forall n, (INR (fact (S n)) = IZR (Z.of_nat (S n)) * INR (fact n))%R.
Proof. intros. rewrite <- INR_IZR_INZ, <- mult_INR. f_equal. Qed.

Lemma factorial_true : forall k, 0 <= k <= 20 -> k <> 11 ->
  math_factorial ROps k = INR (fact (Z.to_nat k)).
Proof.
  intros k H H11.
  assert (C : k = 0 \/ k = 1 \/ k = 2 \/ k = 3 \/ k = 4 \/ k = 5 \/ k = 6 \/ k = 7 \/ k = 8 \/ k = 9 \/ k = 10 \/
    k = 12 \/ k = 13 \/ k = 14 \/ k = 15 \/ k = 16 \/ k = 17 \/ k = 18 \/ k = 19 \/ k = 20) by lia.
  assert (F0 : INR (fact 0) = 1%R) by reflexivity.
  Ltac stepf k := let F := fresh "F" in pose proof (fact_step k) as F.
  stepf 0%nat; stepf 1%nat; stepf 2%nat; stepf 3%nat; stepf 4%nat; stepf 5%nat; stepf 6%nat; stepf 7%nat; stepf 8%nat;
  stepf 9%nat; stepf 10%nat; stepf 11%nat; stepf 12%nat; stepf 13%nat; stepf 14%nat; stepf 15%nat; stepf 16%nat;
  stepf 17%nat; stepf 18%nat; stepf 19%nat.
  cbn [Z.of_nat Pos.of_succ_nat Pos.succ] in *.
  repeat (destruct C as [-> | C]; [|]); try subst k.
  all: unfold math_factorial; match goal with |- context [aget factorial_table ?n] => 
     let v := eval vm_compute in (aget factorial_table n) in change (aget factorial_table n) with v end; cbv iota beta; rops.
  all: match goal with |- context [Z.to_nat ?n] => let v := eval vm_compute in (Z.to_nat n) in change (Z.to_nat n) with v end.
  all: repeat (match goal with F : INR (fact ?n) = _ |- context [INR (fact ?n)] => rewrite F end).
  all: rewrite <- ?mult_IZR; try reflexivity; lra.
Qed.

Lemma aput_spec : forall A (b : list A) i v, 0 <= i < Z.of_nat (length b) ->
  exists b', aput b i v = Some b' /\ length b' = length b /\
    (forall j, aget b' j = if j =? i then Some v else aget b j).
Proof.
  intros A b i v H. exists (upd b (Z.to_nat i) v). split; [now apply aput_ok|]. split; [apply upd_length|].
  intros j. now apply aget_upd.
Qed.

Lemma acopy_all : forall A (b src : list A) n, n = Z.of_nat (length b) -> (length b <= length src)%nat ->
  acopy b 0 src 0 n = Some (firstn (length b) src).
Proof.
  intros A b src n -> H. unfold acopy.
  replace (_ && _)%bool with true by (symmetry; rewrite !andb_true_iff, !Z.leb_le; lia).
  cbn [Z.add Z.to_nat firstn skipn app]. rewrite !Nat2Z.id. rewrite skipn_all, app_nil_r. reflexivity.
Qed.

Section Put.
Variable T : Type.
Variable N : NumOps T.

Lemma put_strengths_spec : forall n i k (val : Z -> option T) (b : list T) (f : Z -> T),
  0 <= i -> i + 2 * Z.of_nat n <= Z.of_nat (length b) + 1 ->
  (forall j, 0 <= j < Z.of_nat n -> val (k + j) = Some (f (k + j))) ->
  exists b', put_strengths N n i k val b = Some b' /\ length b' = length b /\
   (forall j, 0 <= j < Z.of_nat n -> aget b' (i + 2 * j) = Some (ndiv N (f (k + j)) (math_factorial N (k + j)))) /\
   (forall q, (forall j, 0 <= j < Z.of_nat n -> q <> i + 2 * j) -> aget b' q = aget b q).
Proof.
  induction n as [|n IH]; intros i k val b f Hi Hl Hv; cbn [put_strengths].
  - exists b. split; auto. split; auto. split; [intros; lia|auto].
  - pose proof (Hv 0) as H0. rewrite Z.add_0_r in H0. rewrite H0 by lia. cbn [obind].
    destruct (aput_spec _ b i (ndiv N (f k) (math_factorial N k))) as (b1 & E1 & L1 & G1); [lia|].
    rewrite E1. cbn [obind].
    destruct (IH (i + 2) (k + 1) val b1 f) as (b' & E & L & A & B); try lia.
    { intros j Hj. replace (k + 1 + j) with (k + (1 + j)) by lia. apply Hv. lia. }
    exists b'. split; auto. split; [lia|]. split.
    + intros j Hj. destruct (Z.eq_dec j 0) as [->|Hn].
      * rewrite Z.mul_0_r, !Z.add_0_r. rewrite B by (intros; lia). rewrite G1.
        rewrite Z.eqb_refl. reflexivity.
      * specialize (A (j - 1)). replace (i + 2 * j) with (i + 2 + 2 * (j - 1)) by lia. rewrite A by lia.
        replace (k + 1 + (j - 1)) with (k + j) by lia. reflexivity.
    + intros q Hq. rewrite B.
      * rewrite G1. destruct (Z.eqb_spec q i) as [->|]; auto. exfalso. apply (Hq 0); lia.
      * intros j Hj. specialize (Hq (j + 1)). lia.
Qed.

Lemma put_phases_spec : forall n step i k (val : Z -> option T) (b : list T) (f : Z -> T),
  0 < step -> 0 <= i -> i + step * Z.of_nat n <= Z.of_nat (length b) + (step - 1) ->
  (forall j, 0 <= j < Z.of_nat n -> val (k + j) = Some (f (k + j))) ->
  exists b', put_phases n step i k val b = Some b' /\ length b' = length b /\
   (forall j, 0 <= j < Z.of_nat n -> aget b' (i + step * j) = Some (f (k + j))) /\
   (forall q, (forall j, 0 <= j < Z.of_nat n -> q <> i + step * j) -> aget b' q = aget b q).
Proof.
  induction n as [|n IH]; intros step i k val b f Hs Hi Hl Hv; cbn [put_phases].
  - exists b. split; auto. split; auto. split; [intros; lia|auto].
  - pose proof (Hv 0) as H0. rewrite Z.add_0_r in H0. rewrite H0 by lia. cbn [obind].
    destruct (aput_spec _ b i (f k)) as (b1 & E1 & L1 & G1); [nia|].
    rewrite E1. cbn [obind].
    destruct (IH step (i + step) (k + 1) val b1 f) as (b' & E & L & A & B); try nia.
    { intros j Hj. replace (k + 1 + j) with (k + (1 + j)) by lia. apply Hv. lia. }
    exists b'. split; auto. split; [lia|]. split.
    + intros j Hj. destruct (Z.eq_dec j 0) as [->|Hn].
      * rewrite Z.mul_0_r, !Z.add_0_r. rewrite B by (intros; nia). rewrite G1.
        rewrite Z.eqb_refl. reflexivity.
      * specialize (A (j - 1)). replace (i + step * j) with (i + step + step * (j - 1)) by lia. rewrite A by lia.
        replace (k + 1 + (j - 1)) with (k + j) by lia. reflexivity.
    + intros q Hq. rewrite B.
      * rewrite G1. destruct (Z.eqb_spec q i) as [->|]; auto. exfalso. apply (Hq 0); lia.
      * intros j Hj. specialize (Hq (j + 1)). nia.
Qed.

End Put.
