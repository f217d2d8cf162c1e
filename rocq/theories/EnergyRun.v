(* Every element leaves the longitudinal attributes of a particle alone or updates them
   through one of the two energy operations; consistency is kept along tracking. *)
From Coq Require Import ZArith Reals Lra Lia Bool List Psatz.
From Verif Require Import Num Particle Energy Interp TriCubCoefs TriCub BeamFields Elements Track TrackSpec
  DispatchProofs MapsR OpticsSpec OpticsProofs.
Local Open Scope R_scope.

Section Long.
Context {T : Type} (N : NumOps T) (c : config T).

Definition same_long (p q : particle T) : Prop :=
  p_delta q = p_delta p /\ p_psigma q = p_psigma p /\ p_rpp q = p_rpp p /\ p_rvv q = p_rvv p /\
  p_p0c q = p_p0c p /\ p_mass0 q = p_mass0 p /\ p_beta0 q = p_beta0 p.

Definition long_step (p q : particle T) : Prop :=
  same_long p q \/
  (exists dE r, same_long p r /\ q = add_to_energy N dE r) \/
  (exists d r, same_long p r /\ q = update_delta N d r).

Ltac sl := unfold same_long; cbn; repeat split; reflexivity.
Ltac open H :=
  repeat match type of H with
  | obind _ _ = Some _ => apply obind_some in H as (? & _ & H)
  | (if ?b then _ else _) = Some _ => destruct b
  | (match ?b with _ => _ end) = Some _ => destruct b; try discriminate
  end; inversion H; subst.

Lemma same_long_refl : forall p, same_long p p.
Proof. intros. repeat split. Qed.

Lemma long_tricub : forall t p p', track_tricub N t p = Some p' -> long_step p p'.
Proof.
  intros t p p' H. unfold track_tricub in H.
  do 3 (apply obind_some in H as (? & _ & H)).
  destruct (construct_b _ _ _ _) as [b|]; [|discriminate]. cbn [obind] in H.
  revert H. generalize (construct_coefs N (nthT N b)) as cf.
  generalize (kick_sum N) as ks. intros ks cf H.
  apply some_eq in H. rewrite H. clear H p'.
  right; left. eexists; eexists. split; [|reflexivity]. repeat apply conj; reflexivity.
Qed.

Lemma long_bb4d : forall b p p', track_bb4d N b p = Some p' -> long_step p p'.
Proof. intros b p p' H. left. unfold track_bb4d in H. open H; sl. Qed.
Lemma long_sc_coasting : forall s p p', track_sc_coasting N s p = Some p' -> long_step p p'.
Proof. intros s p p' H. left. unfold track_sc_coasting in H. open H; sl. Qed.
Lemma long_sc_qgauss : forall s p p', track_sc_qgauss N s p = Some p' -> long_step p p'.
Proof. intros s p p' H. left. unfold track_sc_qgauss in H. open H; sl. Qed.
Lemma long_sc_interpolated : forall s p p', track_sc_interpolated N s p = Some p' -> long_step p p'.
Proof. intros s p p' H. left. unfold track_sc_interpolated in H. open H; sl. Qed.

Lemma long_bb6d : forall b p p', track_bb6d N b p = Some p' -> long_step p p'.
Proof.
  intros b p p' H. unfold track_bb6d in H.
  destruct (nltb N (nofZ N 0) (b6_enabled b)); [|inversion H; subst; left; sl].
  destruct (bb6d_slices _ _ _ _ _ _) as [v|]; [|discriminate].
  cbn [obind] in H. revert H. generalize (bb6d_inv_boost N (b6_parboost b) v) as w.
  intros w H. cbv zeta in H. apply some_eq in H. rewrite H. right; right. eexists; eexists.
  split; [|reflexivity]. repeat apply conj; reflexivity.
Qed.

Lemma long_run : forall m f p o q o' st, (forall p p', f p = Some p' -> long_step p p') ->
  run_map m f p o = Some (q, o', st) -> long_step p q.
Proof.
  intros m f p o q o' st Hf H. destruct m; cbn in H.
  1,2: destruct (f p) eqn:E; [|discriminate]; inversion H; subst; eauto.
  all: inversion H; subst; left; apply same_long_refl.
Qed.

Lemma long_dispatch : forall be p o q o' st, dispatch N c be p o = Some (q, o', st) -> long_step p q.
Proof.
  intros be p o q o' st H. destruct be; cbn [dispatch] in H.
  - inversion H; subst. left. destruct (drift_check N c length); sl.
  - inversion H; subst. left. destruct (drift_check N c length); sl.
  - inversion H; subst. left. unfold track_multipole.
    destruct (_ || _ || _ || _); [destruct (nltb N (nofZ N 0) length)|]; sl.
  - inversion H; subst. unfold track_rfmultipole. destruct (fold_left _ _ _) as [[[[? ?] ?] ?] ?].
    right; left. eexists; eexists. split; [|reflexivity]. sl.
  - inversion H; subst. right; left. eexists; eexists. split; [apply same_long_refl|reflexivity].
  - inversion H; subst. left. sl.
  - inversion H; subst. left. sl.
  - left. unfold track_monitor in H. open H; sl.
  - inversion H; subst. left. sl.
  - inversion H; subst. left. sl.
  - inversion H; subst. left. sl.
  - inversion H; subst. left. sl.
  - eapply long_run; [|exact H]. apply long_tricub.
  - left. destruct (c_tricub c); inversion H; subst; sl.
  - eapply long_run; [|exact H]. apply long_bb4d.
  - eapply long_run; [|exact H]. apply long_bb6d.
  - eapply long_run; [|exact H]. apply long_sc_coasting.
  - eapply long_run; [|exact H]. apply long_sc_qgauss.
  - destruct (c_sc c);
      [eapply long_run; [|exact H]; apply long_sc_interpolated
      |eapply long_run; [|exact H]; apply long_sc_interpolated
      |injection H as <- <- <-; left; sl|injection H as <- <- <-; left; sl].
  - injection H as <- <- <-. left; sl.
Qed.

End Long.

Lemma same_long_consistent : forall p q : particle R, same_long p q -> consistent p -> consistent q.
Proof.
  intros p q (H1 & H2 & H3 & H4 & H5 & H6 & H7) ((G1 & G2 & G3) & P & E & [D1 D2 D3 D4 D5 D6]).
  split.
  - unfold good_reference, energy0 in *. rewrite H5, H6, H7. auto.
  - exists P, E. unfold energy0 in *.
    constructor; unfold energy0; rewrite ?H1, ?H2, ?H3, ?H4, ?H5, ?H6, ?H7; auto.
Qed.

Lemma energy_consistent : forall p dE, consistent p ->
  -1 < p_delta (add_to_energy ROps dE p) -> 0 < p_rvv (add_to_energy ROps dE p) ->
  consistent (add_to_energy ROps dE p).
Proof.
  intros p dE (Hg & P & E & Hd) H1 H2.
  pose proof Hg as (Hp0 & Hm0 & Hb). destruct (energy0_pos p Hg) as (HE0 & HE02).
  assert (Hd' := Hd). destruct Hd' as [HP HE Hdel Hps Hrpp Hrvv].
  destruct (shell _ _ _ HP Hm0 HE) as (HEp & HE2).
  set (E' := E + dE) in *.
  assert (T1 : dE / energy0 p + E / energy0 p - 1 = (E' - energy0 p) / energy0 p)
    by (unfold E'; field; lra).
  assert (T2 := beta_terms (p_p0c p) (p_beta0 p) P E (energy0 p) Hp0 HE0 HEp Hb ltac:(lra)).
  cbv zeta in T2.
  assert (Hb0 : p_beta0 p <> 0) by (rewrite Hb; apply Rgt_not_eq; apply Rdiv_lt_0_compat; auto).
  set (inner := ((E' - energy0 p) / energy0 p / p_beta0 p) * ((E' - energy0 p) / energy0 p / p_beta0 p) +
        2 * ((E' - energy0 p) / energy0 p / p_beta0 p / p_beta0 p) + 1).
  assert (Q1 : p_delta (add_to_energy ROps dE p) = sqrt inner - 1).
  { unfold add_to_energy. rewrite energy0_model. rops. pfields. rewrite Hdel, T2, T1. reflexivity. }
  assert (Q2 : p_rvv (add_to_energy ROps dE p) = (sqrt inner - 1 + 1) / (1 + (E' - energy0 p) / energy0 p)).
  { unfold add_to_energy. rewrite energy0_model. rops. pfields. rewrite Hdel, T2, T1. reflexivity. }
  assert (Hin : inner = (E' ^ 2 - p_mass0 p ^ 2) / p_p0c p ^ 2).
  { unfold inner. rewrite Hb. replace (p_mass0 p ^ 2) with (energy0 p ^ 2 - p_p0c p ^ 2) by lra.
    field. lra. }
  assert (Hs : 0 < sqrt inner) by lra.
  assert (Hin0 : 0 < inner).
  { destruct (Rle_dec inner 0) as [Hle|]; [|lra]. rewrite (sqrt_neg_0 _ Hle) in Hs. lra. }
  assert (HE'2 : p_mass0 p ^ 2 < E' ^ 2).
  { rewrite Hin in Hin0. destruct (Rle_dec (E' ^ 2) (p_mass0 p ^ 2)) as [Hle|]; [|lra].
    assert (0 < / p_p0c p ^ 2) by (apply Rinv_0_lt_compat; nra). unfold Rdiv in Hin0. nra. }
  assert (HE'0 : 0 < E').
  { rewrite Q2 in H2. replace (1 + (E' - energy0 p) / energy0 p) with (E' / energy0 p) in H2 by (field; lra).
    replace (sqrt inner - 1 + 1) with (sqrt inner) in H2 by ring.
    destruct (Rle_dec E' 0) as [Hle|]; [|lra].
    destruct (Req_dec E' 0) as [->|Hne]; [unfold Rdiv in H2; rewrite Rmult_0_l, Rinv_0, Rmult_0_r in H2; lra|].
    assert (E' / energy0 p < 0) by (unfold Rdiv; assert (0 < / energy0 p) by (apply Rinv_0_lt_compat; lra); nra).
    assert (/ (E' / energy0 p) < 0) by (now apply Rinv_lt_0_compat). unfold Rdiv in *. nra. }
  assert (HE' : p_mass0 p < E + dE) by (fold E'; nra).
  destruct (add_energy_ok p P E dE Hg Hd HE') as (A & _ & B). cbv zeta in A, B.
  split; [|eexists; eexists; exact A]. rewrite B. exact Hg.
Qed.

Lemma update_consistent : forall p d, good_reference p -> -1 < d -> consistent (update_delta ROps d p).
Proof.
  intros p d Hg Hd. destruct (update_delta_ok p d Hg ltac:(lra)) as (A & _ & _ & B). cbv zeta in A, B.
  split; [|eexists; eexists; exact A]. rewrite B. exact Hg.
Qed.

Lemma dispatch_consistent : forall c be p o q o' st, consistent p ->
  dispatch ROps c be p o = Some (q, o', st) -> -1 < p_delta q -> 0 < p_rvv q -> consistent q.
Proof.
  intros c be p o q o' st Hp H H1 H2. destruct (long_dispatch ROps c be p o q o' st H) as [Hs|[(dE & r & Hs & ->)|(d & r & Hs & ->)]].
  - eapply same_long_consistent; eauto.
  - apply energy_consistent; auto. eapply same_long_consistent; eauto.
  - apply update_consistent; [|exact H1]. destruct (same_long_consistent p r Hs Hp) as (Hg & _). exact Hg.
Qed.

Lemma arrives_consistent : forall c lattice p o t j q o', consistent p ->
  (forall t j q o', arrives 0 (dispatch ROps c) lattice p o t j q o' -> -1 < p_delta q /\ 0 < p_rvv q) ->
  arrives 0 (dispatch ROps c) lattice p o t j q o' -> consistent q.
Proof.
  intros c lattice p o t j q o' Hp Hall H. induction H.
  - exact Hp.
  - pose proof (Hall _ _ _ _ (arrives_next H H0 H1 H2)) as (A & B).
    eapply (same_long_consistent q'); [repeat split|]. eapply dispatch_consistent; eauto.
  - eapply (same_long_consistent q); [repeat split|]. exact IHarrives.
Qed.
