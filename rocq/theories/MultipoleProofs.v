(* The multipole kick is the complex polynomial, the gradient of a potential. *)
From Coq Require Import ZArith Reals Lra Lia Bool Psatz List.
From Coquelicot Require Import Coquelicot.
From Verif Require Import Num Particle Energy Elements MapsR OpticsSpec.
Local Open Scope R_scope.

Definition ba_at (ba : list R) (n : nat) : C := (nth (2 * n) ba 0, nth (2 * n + 1) ba 0).

Lemma bal_at_R : forall l i, bal_at ROps l i = nth i l 0.
Proof. reflexivity. Qed.

(* The Horner loop started with d at index k computes
   d z^k + sum_(n<k) c_n z^n. *)
Fixpoint csum (f : nat -> C) (k : nat) : C :=
  match k with O => RtoC 0 | S m => Cplus (csum f m) (f m) end.

Lemma csum_sum_n : forall f n, csum f (S n) = sum_n f n.
Proof.
  intros f n. induction n.
  - cbn [csum]. rewrite sum_O. apply Cplus_0_l.
  - rewrite sum_Sn, <- IHn. reflexivity.
Qed.

Lemma Cpow_comm : forall z n, Cmult z (Cpow z n) = Cmult (Cpow z n) z.
Proof. intros. apply Cmult_comm. Qed.

Lemma horner : forall ba x y k (d : C),
  multipole_loop ROps ba x y k (fst d) (snd d) =
  Cplus (Cmult d (Cpow (x, y) k)) (csum (fun n => Cmult (ba_at ba n) (Cpow (x, y) n)) k).
Proof.
  intros ba x y k. induction k; intros d.
  - cbn [multipole_loop Cpow csum]. rewrite Cmult_1_r, Cplus_0_r. destruct d; reflexivity.
  - cbn [multipole_loop]. rewrite !bal_at_R. rops.
    set (d' := Cplus (ba_at ba k) (Cmult d (x, y))).
    replace (nth (2 * k) ba 0 + (fst d * x - snd d * y)) with (fst d')
      by (unfold d', ba_at, Cplus, Cmult; cbn [fst snd]; ring).
    replace (nth (2 * k + 1) ba 0 + (fst d * y + snd d * x)) with (snd d')
      by (unfold d', ba_at, Cplus, Cmult; cbn [fst snd]; ring).
    rewrite IHk. unfold d'. cbn [csum Cpow].
    apply injective_projections; unfold Cplus, Cmult; cbn [fst snd]; ring.
Qed.

Lemma loop_sum : forall ba order (x y : R),
  multipole_loop ROps ba x y order (bal_at ROps ba (2 * order)) (bal_at ROps ba (2 * order + 1)) =
  multipole_sum ba order x y.
Proof.
  intros. rewrite !bal_at_R.
  pose proof (horner ba x y order (ba_at ba order)) as H. unfold ba_at in H at 1 2. cbn [fst snd] in H.
  rewrite H. unfold multipole_sum. rewrite <- csum_sum_n. cbn [csum]. rewrite Cplus_comm. reflexivity.
Qed.

Lemma multipole_map : forall order length hxl hyl ba p,
  let S := multipole_sum ba order (p_x p) (p_y p) in
  let chi := p_chi p in
  track_multipole ROps order length hxl hyl ba p =
  set_py (p_py p + (chi * Im S + curvature_py hyl length (nth 1 ba 0) chi (p_y p) (p_delta p)))
  (set_px (p_px p + (- chi * Re S + curvature_px hxl length (nth 0 ba 0) chi (p_x p) (p_delta p)))
  (set_zeta (p_zeta p + chi * (hyl * p_y p - hxl * p_x p)) p)).
Proof.
  intros order length hxl hyl ba p S chi. unfold track_multipole. rewrite loop_sum. fold S. fold chi.
  rops. unfold curvature_px, curvature_py, Rltb, Re, Im. rewrite !bal_at_R.
  destruct (Rlt_dec 0 hxl), (Rlt_dec 0 hyl), (Rlt_dec hxl 0), (Rlt_dec hyl 0); cbn [orb];
    destruct (Rlt_dec 0 length); unfold chi, S; destruct p; pupdate; cbn [fst snd];
    try (assert (hxl = 0) by lra); try (assert (hyl = 0) by lra); f_equal; subst; try field; try lra.
Qed.

(* ---- derivatives of powers ---- *)
Lemma pow_derive_x : forall n (x y : R),
  is_derive (fun t : R => fst (Cpow (t, y) (S n))) x (INR (S n) * fst (Cpow (x, y) n)) /\
  is_derive (fun t : R => snd (Cpow (t, y) (S n))) x (INR (S n) * snd (Cpow (x, y) n)).
Proof.
  induction n; intros x y.
  - cbn [Cpow]. unfold Cmult, RtoC. cbn [fst snd]. split; auto_derive; auto; cbn; ring.
  - destruct (IHn x y) as (H1 & H2). split.
    + eapply is_derive_ext with (f := fun t : R => t * fst (Cpow (t, y) (S n)) - y * snd (Cpow (t, y) (S n))).
      { intros t. reflexivity. }
      evar_last.
      * apply (is_derive_minus (fun t : R => t * fst (Cpow (t, y) (S n))) (fun t : R => y * snd (Cpow (t, y) (S n)))).
        -- apply (is_derive_mult (fun t : R => t) (fun t : R => fst (Cpow (t, y) (S n)))).
           ++ apply (is_derive_id x).
           ++ exact H1.
           ++ intros; apply Rmult_comm.
        -- apply is_derive_scal. exact H2.
      * rewrite S_INR. unfold minus, plus, opp, mult, one; cbn -[Cpow INR].
        change (Cpow (x, y) (S n)) with (Cmult (x, y) (Cpow (x, y) n)). unfold Cmult. cbn [fst snd].
        rewrite !S_INR. ring.
    + eapply is_derive_ext with (f := fun t : R => t * snd (Cpow (t, y) (S n)) + y * fst (Cpow (t, y) (S n))).
      { intros t. reflexivity. }
      evar_last.
      * apply (is_derive_plus (fun t : R => t * snd (Cpow (t, y) (S n))) (fun t : R => y * fst (Cpow (t, y) (S n)))).
        -- apply (is_derive_mult (fun t : R => t) (fun t : R => snd (Cpow (t, y) (S n)))).
           ++ apply (is_derive_id x).
           ++ exact H2.
           ++ intros; apply Rmult_comm.
        -- apply is_derive_scal. exact H1.
      * rewrite S_INR. unfold minus, plus, opp, mult, one; cbn -[Cpow INR].
        change (Cpow (x, y) (S n)) with (Cmult (x, y) (Cpow (x, y) n)). unfold Cmult. cbn [fst snd].
        rewrite !S_INR. ring.
Qed.

Lemma pow_derive_y : forall n (x y : R),
  is_derive (fun t : R => fst (Cpow (x, t) (S n))) y (- INR (S n) * snd (Cpow (x, y) n)) /\
  is_derive (fun t : R => snd (Cpow (x, t) (S n))) y (INR (S n) * fst (Cpow (x, y) n)).
Proof.
  induction n; intros x y.
  - cbn [Cpow]. unfold Cmult, RtoC. cbn [fst snd]. split; auto_derive; auto; cbn; ring.
  - destruct (IHn x y) as (H1 & H2). split.
    + eapply is_derive_ext with (f := fun t : R => x * fst (Cpow (x, t) (S n)) - t * snd (Cpow (x, t) (S n))).
      { intros t. reflexivity. }
      evar_last.
      * apply (is_derive_minus (fun t : R => x * fst (Cpow (x, t) (S n))) (fun t : R => t * snd (Cpow (x, t) (S n)))).
        -- apply is_derive_scal. exact H1.
        -- apply (is_derive_mult (fun t : R => t) (fun t : R => snd (Cpow (x, t) (S n)))).
           ++ apply (is_derive_id y).
           ++ exact H2.
           ++ intros; apply Rmult_comm.
      * rewrite S_INR. unfold minus, plus, opp, mult, one; cbn -[Cpow INR].
        change (Cpow (x, y) (S n)) with (Cmult (x, y) (Cpow (x, y) n)). unfold Cmult. cbn [fst snd].
        rewrite !S_INR. ring.
    + eapply is_derive_ext with (f := fun t : R => x * snd (Cpow (x, t) (S n)) + t * fst (Cpow (x, t) (S n))).
      { intros t. reflexivity. }
      evar_last.
      * apply (is_derive_plus (fun t : R => x * snd (Cpow (x, t) (S n))) (fun t : R => t * fst (Cpow (x, t) (S n)))).
        -- apply is_derive_scal. exact H2.
        -- apply (is_derive_mult (fun t : R => t) (fun t : R => fst (Cpow (x, t) (S n)))).
           ++ apply (is_derive_id y).
           ++ exact H1.
           ++ intros; apply Rmult_comm.
      * rewrite S_INR. unfold minus, plus, opp, mult, one; cbn -[Cpow INR].
        change (Cpow (x, y) (S n)) with (Cmult (x, y) (Cpow (x, y) n)). unfold Cmult. cbn [fst snd].
        rewrite !S_INR. ring.
Qed.

Lemma Re_sum_n : forall (f : nat -> C) n, Re (sum_n f n) = sum_n (fun i => Re (f i)) n.
Proof.
  intros f n. induction n.
  - now rewrite !sum_O.
  - rewrite !sum_Sn, <- IHn. reflexivity.
Qed.
Lemma Im_sum_n : forall (f : nat -> C) n, Im (sum_n f n) = sum_n (fun i => Im (f i)) n.
Proof.
  intros f n. induction n.
  - now rewrite !sum_O.
  - rewrite !sum_Sn, <- IHn. reflexivity.
Qed.

Lemma potential_gradient : forall ba order (x y : R),
  is_derive (fun t : R => multipole_potential ba order t y) x (Re (multipole_sum ba order x y)) /\
  is_derive (fun t : R => multipole_potential ba order x t) y (- Im (multipole_sum ba order x y)).
Proof.
  intros ba order x y. unfold multipole_potential, multipole_sum. rewrite Re_sum_n, Im_sum_n. split.
  - eapply is_derive_ext; [intros t; symmetry; apply Re_sum_n|].
    apply (is_derive_sum_n (K := R_AbsRing)
      (fun n (t : R) => Re (Cmult (nth (2 * n) ba 0 / INR (n + 1), nth (2 * n + 1) ba 0 / INR (n + 1)) (Cpow (t, y) (n + 1))))).
    intros n _. replace (n + 1)%nat with (S n) by lia. destruct (pow_derive_x n x y) as (H1 & H2).
    unfold Re, Im, Cmult. cbn [fst snd].
    evar_last.
    + apply (is_derive_minus (fun t : R => nth (2 * n) ba 0 / INR (S n) * fst (Cpow (t, y) (S n)))
                             (fun t : R => nth (2 * n + 1) ba 0 / INR (S n) * snd (Cpow (t, y) (S n)))).
      * apply is_derive_scal. exact H1.
      * apply is_derive_scal. exact H2.
    + unfold minus, plus, opp; cbn -[Cpow INR]. assert (INR (S n) <> 0) by (apply not_0_INR; lia). field. auto.
  - eapply is_derive_ext; [intros t; symmetry; apply Re_sum_n|].
    evar_last.
    { apply (is_derive_sum_n (K := R_AbsRing)
      (fun n (t : R) => Re (Cmult (nth (2 * n) ba 0 / INR (n + 1), nth (2 * n + 1) ba 0 / INR (n + 1)) (Cpow (x, t) (n + 1))))
      order y (fun n => - Im (Cmult (nth (2 * n) ba 0, nth (2 * n + 1) ba 0) (Cpow (x, y) n)))).
    intros n _. replace (n + 1)%nat with (S n) by lia. destruct (pow_derive_y n x y) as (H1 & H2).
    unfold Re, Im, Cmult. cbn [fst snd].
    evar_last.
    + apply (is_derive_minus (fun t : R => nth (2 * n) ba 0 / INR (S n) * fst (Cpow (x, t) (S n)))
                             (fun t : R => nth (2 * n + 1) ba 0 / INR (S n) * snd (Cpow (x, t) (S n)))).
      * apply is_derive_scal. exact H1.
      * apply is_derive_scal. exact H2.
    + unfold minus, plus, opp; cbn -[Cpow INR]. assert (INR (S n) <> 0) by (apply not_0_INR; lia). field. auto. }
    induction order.
    + now rewrite !sum_O.
    + rewrite !sum_Sn, IHorder. unfold plus; cbn -[Cmult Cpow]. ring.
Qed.
