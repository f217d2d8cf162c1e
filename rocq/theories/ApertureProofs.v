From Coq Require Import ZArith Reals Lra Lia Bool.
From Flocq Require Import Core Relative IEEE754.BinarySingleNaN.
From Verif Require Import Num Particle Elements MapsR Binary64 Aperture ApertureSpec.

Section Gen.
Variable T : Type.
Variable N : NumOps T.

Lemma land_1_l : forall b, Z.land 1 (b2z b) = b2z b.
Proof. destruct b; reflexivity. Qed.

Lemma update_checked : forall (p : particle T) (b : bool) (accept : T -> T -> Prop),
  (b = true <-> accept (p_x p) (p_y p)) ->
  checked accept p (update_state_if_not_lost (b2z b) p).
Proof.
  intros p b acc H. unfold checked, update_state_if_not_lost. 
  split; [|split].
  - destruct p; reflexivity.
  - intros H1. replace (p_state (set_state (Z.land (p_state p) (b2z b)) p)) with (b2z b).
    + destruct b; cbn [b2z]; split; split; intros H2; try discriminate; try tauto.
      * exfalso. apply H in H2. discriminate.
      * intros Ha. apply H in Ha. discriminate.
    + destruct p; cbn in H1 |- *. rewrite H1. now rewrite land_1_l.
  - intros H1. destruct p; cbn in H1 |- *. rewrite H1. reflexivity.
Qed.

Lemma rect_performs : forall c r (accept : T -> T -> Prop),
  (forall x y, (nleb N (r_min_x r) x && nleb N x (r_max_x r) &&
               nleb N (r_min_y r) y && nleb N y (r_max_y r))%bool = true <-> accept x y) ->
  performs N c (rect_elem r) accept.
Proof.
  intros c r acc H p outs. eexists. split; [reflexivity|].
  unfold track_limit_rect. apply update_checked. apply H.
Qed.

Lemma ellipse_performs : forall c e (accept : T -> T -> Prop),
  (forall x y, nleb N (nadd N (nmul N (nmul N x x) (e_b_squ e)) (nmul N (nmul N y y) (e_a_squ e)))
                 (e_a_b_squ e) = true <-> accept x y) ->
  performs N c (ellipse_elem e) accept.
Proof.
  intros c r acc H p outs. eexists. split; [reflexivity|].
  unfold track_limit_ellipse. apply update_checked. apply H.
Qed.

Lemma re_performs : forall c r (accept : T -> T -> Prop),
  (forall x y, (nleb N x (re_max_x r) && nleb N (nopp N (re_max_x r)) x &&
                nleb N y (re_max_y r) && nleb N (nopp N (re_max_y r)) y &&
                nleb N (nadd N (nmul N (nmul N x x) (re_b_squ r)) (nmul N (nmul N y y) (re_a_squ r)))
                 (re_ab r))%bool = true <-> accept x y) ->
  performs N c (re_elem r) accept.
Proof.
  intros c r acc H p outs. eexists. split; [reflexivity|].
  unfold track_limit_rect_ellipse. apply update_checked. apply H.
Qed.

Lemma global_checked : forall c p (accept : T -> T -> Prop),
  (let sg v := nsub N (b2t N (nltb N (nofZ N 0) v)) (b2t N (nltb N v (nofZ N 0))) in
   forall x y, (nltb N (nmul N (sg x) x) (c_x_limit c) &&
                nltb N (nmul N (sg y) y) (c_y_limit c))%bool = true <-> accept x y) ->
  checked accept p (track_limit_global N c p).
Proof.
  intros c p acc H. cbv zeta in H. unfold track_limit_global.
  set (b1 := nltb N _ (c_x_limit c)). set (b2 := nltb N _ (c_y_limit c)).
  replace (Z.land (b2z b1) (b2z b2)) with (b2z (b1 && b2)) by (destruct b1, b2; reflexivity).
  apply update_checked. apply H.
Qed.

End Gen.

Local Open Scope R_scope.

(* ---------------- reals ---------------- *)
Lemma Rle_b : forall a b, nleb ROps a b = true <-> a <= b.
Proof. intros. cbn [nleb ROps]. unfold Rleb. destruct (Rle_dec a b); split; intros; auto; try discriminate; contradiction. Qed.
Lemma Rlt_b : forall a b, nltb ROps a b = true <-> a < b.
Proof. intros. cbn [nltb ROps]. unfold Rltb. destruct (Rlt_dec a b); split; intros; auto; try discriminate; contradiction. Qed.

Lemma ellipse_iff : forall a b x y, a <> 0 -> b <> 0 ->
  x * x * (b * b) + y * y * (a * a) <= a * a * (b * b) <-> closed_ellipse a b x y.
Proof.
  intros a b x y Ha Hb. unfold closed_ellipse.
  assert (0 < a * a) by nra. assert (0 < b * b) by nra.
  assert (H1 : 0 < a * a * (b * b)) by nra.
  assert (E : x * x * (b * b) + y * y * (a * a) = ((x / a) ^ 2 + (y / b) ^ 2) * (a * a * (b * b)))
    by (field; split; assumption).
  rewrite E. split; intros.
  - apply Rmult_le_reg_r with (a * a * (b * b)); lra.
  - apply Rmult_le_compat_r with (r := a * a * (b * b)) in H2; lra.
Qed.

Lemma sg_R : forall v, (nsub ROps (b2t ROps (nltb ROps (nofZ ROps 0) v)) (b2t ROps (nltb ROps v (nofZ ROps 0)))) * v = Rabs v.
Proof.
  intros v. cbn [nsub nltb nofZ ROps]. unfold b2t; cbn [nofZ ROps].
  unfold Rltb, Rabs. destruct (Rcase_abs v); destruct (Rlt_dec 0 v), (Rlt_dec v 0); cbn [IZR IPR]; try lra.
Qed.

Lemma global_R : forall c p, checked (open_box (c_x_limit c) (c_y_limit c)) p (track_limit_global ROps c p).
Proof.
  intros. apply global_checked. intros sg x y. unfold sg. 
  rewrite andb_true_iff, !Rlt_b. cbn [nmul ROps] in *.
  pose proof (sg_R x) as Hx. pose proof (sg_R y) as Hy.
  unfold open_box. rewrite Hx, Hy. reflexivity.
Qed.

(* ---------------- binary64 ---------------- *)
Lemma fin_le : forall x y, fin x -> fin y -> (Bleb x y = true <-> val x <= val y).
Proof.
  intros x y Hx Hy. unfold val. rewrite (Bleb_correct _ _ x y Hx Hy).
  split; intros; [now apply Rle_bool_true_inv || (revert H; case Rle_bool_spec; [auto|discriminate])|now apply Rle_bool_true].
Qed.
Lemma fin_lt : forall x y, fin x -> fin y -> (Bltb x y = true <-> val x < val y).
Proof.
  intros x y Hx Hy. unfold val. rewrite (Bltb_correct _ _ x y Hx Hy).
  split; intros; [revert H; case Rlt_bool_spec; [auto|discriminate]|now apply Rlt_bool_true].
Qed.

(* between finite bounds only finite numbers fit *)
Lemma between_fin : forall lo hi x, fin lo -> fin hi -> Bleb lo x = true -> Bleb x hi = true -> fin x.
Proof.
  intros lo hi x Hl Hh H1 H2. destruct x as [s|[]| |s m e B]; try reflexivity;
  destruct lo as [sl|sl| |sl ml el Bl]; try discriminate; destruct hi as [sh|sh| |sh mh eh Bh]; try discriminate.
  all: destruct sl; discriminate || destruct sh; discriminate.
Qed.

Section B64.
Variable L : NumOps binary64.
Notation N := (B64Ops L).

Lemma rect_b64 : forall r : rect binary64,
  fin (r_min_x r) -> fin (r_max_x r) -> fin (r_min_y r) -> fin (r_max_y r) ->
  forall x y, (nleb N (r_min_x r) x && nleb N x (r_max_x r) &&
               nleb N (r_min_y r) y && nleb N y (r_max_y r))%bool = true <->
   fin x /\ fin y /\ closed_box (val (r_min_x r)) (val (r_max_x r)) (val (r_min_y r)) (val (r_max_y r)) (val x) (val y).
Proof.
  intros r H1 H2 H3 H4 x y. cbn [nleb B64Ops]. rewrite !andb_true_iff. unfold closed_box. split.
  - intros [[[A B] C] D].
    assert (Fx := between_fin _ _ _ H1 H2 A B). assert (Fy := between_fin _ _ _ H3 H4 C D).
    apply fin_le in A; auto. apply fin_le in B; auto. apply fin_le in C; auto. apply fin_le in D; auto.
  - intros (Fx & Fy & [A B] & [C D]). 
    apply fin_le in A; auto. apply fin_le in B; auto. apply fin_le in C; auto. apply fin_le in D; auto.
Qed.

(* multiplication by one and minus one is exact *)
Lemma val_round : forall x : binary64, round radix2 (SpecFloat.fexp prec64 emax64) (round_mode mode_NE) (val x) = val x.
Proof. intros. apply round_generic; [apply valid_rnd_round_mode|apply generic_format_B2R]. Qed.

Lemma val_small : forall x : binary64, Rabs (val x) < bpow radix2 emax64.
Proof. intros. apply abs_B2R_lt_emax. Qed.

Lemma mult_exact : forall s x : binary64, fin s -> fin x -> (val s = 1 \/ val s = -1) ->
  val (Bmult mode_NE s x) = val s * val x /\ fin (Bmult mode_NE s x).
Proof.
  intros s x Hs Hx Hv.
  pose proof (Bmult_correct prec64 emax64 _ _ mode_NE s x) as H.
  assert (E : round radix2 (SpecFloat.fexp prec64 emax64) (round_mode mode_NE) (B2R s * B2R x) = val s * val x).
  { fold (val s) (val x). destruct Hv as [-> | ->].
    - rewrite Rmult_1_l. apply val_round.
    - replace (-1 * val x) with (- val x) by ring. 
      replace (- val x) with (val (Bopp x)) by apply B2R_Bopp. apply val_round. }
  rewrite E in H. rewrite Rlt_bool_true in H.
  - destruct H as (H1 & H2 & _). split; [exact H1|]. unfold fin. rewrite H2, Hs, Hx. reflexivity.
  - destruct Hv as [-> | ->].
    + rewrite Rmult_1_l. apply val_small.
    + replace (-1 * val x) with (- val x) by ring. rewrite Rabs_Ropp. apply val_small.
Qed.

Definition sg64 (v : binary64) : binary64 :=
  nsub N (b2t N (nltb N (nofZ N 0) v)) (b2t N (nltb N v (nofZ N 0))).

Lemma val_sf : forall (x : binary64) f, B2SF x = f -> val x = SF2R radix2 f.
Proof. intros x f <-. symmetry. apply SF2R_B2SF. Qed.

Lemma sg64_cases : forall v, 
  (Bltb (b64_ofZ 0) v = true /\ Bltb v (b64_ofZ 0) = false /\ B2SF (sg64 v) = SpecFloat.S754_finite false 4503599627370496 (-52)) \/
  (Bltb (b64_ofZ 0) v = false /\ Bltb v (b64_ofZ 0) = true /\ B2SF (sg64 v) = SpecFloat.S754_finite true 4503599627370496 (-52)) \/
  (Bltb (b64_ofZ 0) v = false /\ Bltb v (b64_ofZ 0) = false /\ B2SF (sg64 v) = SpecFloat.S754_zero false).
Proof.
  intros v. unfold sg64, b2t. cbn [nsub nltb nofZ B64Ops].
  destruct (Bltb (b64_ofZ 0) v) eqn:E1, (Bltb v (b64_ofZ 0)) eqn:E2.
  - exfalso. destruct v as [s|[]| |[] m e B]; discriminate.
  - left. repeat split.
  - right; left. repeat split.
  - right; right. repeat split.
Qed.

Lemma ofZ0 : val (b64_ofZ 0) = 0 /\ fin (b64_ofZ 0).
Proof. split; reflexivity. Qed.

Lemma fin_sf : forall x : binary64, fin x <-> is_finite_SF (B2SF x) = true.
Proof. intros. unfold fin. rewrite is_finite_SF_B2SF. reflexivity. Qed.

Lemma sg64_abs : forall v, fin v ->
  fin (Bmult mode_NE (sg64 v) v) /\ val (Bmult mode_NE (sg64 v) v) = Rabs (val v).
Proof.
  intros v Hv. destruct ofZ0 as [Z0 F0].
  destruct (sg64_cases v) as [(A & B & C)|[(A & B & C)|(A & B & C)]].
  - apply fin_lt in A; auto. rewrite Z0 in A.
    assert (V := val_sf _ _ C). cbn [SF2R] in V. unfold F2R, cond_Zopp in V. cbn [Fnum Fexp bpow] in V.
    assert (V1 : val (sg64 v) = 1) by (rewrite V; cbn; lra).
    destruct (mult_exact (sg64 v) v) as [E F]; auto.
    + apply fin_sf. rewrite C. reflexivity.
    + rewrite E, V1, Rmult_1_l, Rabs_pos_eq; auto. lra.
  - apply fin_lt in B; auto. rewrite Z0 in B.
    assert (V := val_sf _ _ C). cbn [SF2R] in V. unfold F2R, cond_Zopp in V. cbn [Fnum Fexp bpow] in V.
    assert (V1 : val (sg64 v) = -1) by (rewrite V; cbn; lra).
    destruct (mult_exact (sg64 v) v) as [E F]; auto.
    + apply fin_sf. rewrite C. reflexivity.
    + rewrite E, V1. rewrite Rabs_left by lra. split; auto. ring.
  - assert (val v = 0).
    { destruct (Rtotal_order 0 (val v)) as [H|[H|H]]; auto.
      - rewrite <- Z0 in H at 1. apply fin_lt in H; auto. congruence.
      - rewrite <- Z0 in H. apply fin_lt in H; auto. congruence. }
    destruct (sg64 v) as [s|s| |s m e Be]; try discriminate.
    destruct v as [s'|s'| |s' m' e' B']; try discriminate.
    + split; [reflexivity|]. cbn. now rewrite Rabs_R0.
    + split; [reflexivity|]. rewrite H. cbn. now rewrite Rabs_R0.
Qed.

Lemma sg64_notfin : forall v l, ~ fin v -> fin l -> Bltb (Bmult mode_NE (sg64 v) v) l = false.
Proof.
  intros v l Hv Hl.
  destruct v as [s|s| |s m e B]; try (exfalso; apply Hv; reflexivity).
  - destruct s.
    + replace (sg64 (B754_infinity true)) with (sg64 (b64_ofZ (-1))) by reflexivity.
      destruct l as [sl|sl| |[] ml el Bl]; try discriminate; reflexivity.
    + replace (sg64 (B754_infinity false)) with (sg64 (b64_ofZ 1)) by reflexivity.
      destruct l as [sl|sl| |[] ml el Bl]; try discriminate; reflexivity.
  - destruct l as [sl|sl| |[] ml el Bl]; try discriminate; reflexivity.
Qed.

Lemma global_b64 : forall c : config binary64, fin (c_x_limit c) -> fin (c_y_limit c) ->
  forall p, checked (fun x y => fin x /\ fin y /\
    open_box (val (c_x_limit c)) (val (c_y_limit c)) (val x) (val y)) p (track_limit_global N c p).
Proof.
  intros c Hx Hy p. apply global_checked. intros sg x y. unfold sg. fold (sg64 x) (sg64 y).
  cbn [nltb nmul B64Ops]. rewrite andb_true_iff.
  assert (K : forall v l, fin l -> (Bltb (Bmult mode_NE (sg64 v) v) l = true <-> fin v /\ Rabs (val v) < val l)).
  { intros v l Hl. destruct (is_finite v) eqn:F.
    - destruct (sg64_abs v F) as [F1 V1]. rewrite fin_lt, V1; auto. unfold fin. tauto.
    - rewrite sg64_notfin; auto; [|unfold fin; congruence]. split; [discriminate|]. unfold fin; intros []; congruence. }
  rewrite !K; auto. unfold open_box. tauto.
Qed.

(* plus infinity or NaN: never at most a finite number *)
Definition bad (x : binary64) : bool := match x with B754_nan | B754_infinity false => true | _ => false end.
Definition nonneg_or_bad (x : binary64) : bool :=
  bad x || match x with B754_zero _ | B754_finite false _ _ _ => true | _ => false end.

Lemma bad_le : forall x l, bad x = true -> fin l -> Bleb x l = false.
Proof.
  intros x l Hb Hl. destruct x as [s|[]| |s m e B]; try discriminate;
  destruct l as [sl|sl| |[] ml el Bl]; try discriminate; reflexivity.
Qed.

Lemma overflow_or : forall (x : binary64) (s : bool),
   B2SF x = binary_overflow prec64 emax64 mode_NE s -> x = B754_infinity s.
Proof. intros x s H. unfold binary_overflow in H. cbn in H. destruct x; try discriminate. cbn in H. congruence. Qed.

(* a product is negative only if exactly one factor is *)
Lemma mult_sign : forall x y : binary64, 
  is_nan (Bmult mode_NE x y) = false -> Bsign (Bmult mode_NE x y) = xorb (Bsign x) (Bsign y).
Proof.
  intros x y H. pose proof (Bmult_correct prec64 emax64 _ _ mode_NE x y) as C.
  destruct (Rlt_bool _ _); [tauto|]. apply overflow_or in C. rewrite C. reflexivity.
Qed.

Lemma nob_sign : forall x, nonneg_or_bad x = true <-> (is_nan x = true \/ Bsign x = false \/ x = B754_zero true).
Proof.
  intros x. destruct x as [[]|[]| |[] m e B]; cbn; split; intros; auto; try discriminate;
  try (destruct H as [H|[H|H]]; discriminate).
Qed.

Lemma square_nob : forall x : binary64, nonneg_or_bad (Bmult mode_NE x x) = true.
Proof.
  intros x. apply nob_sign. destruct (is_nan (Bmult mode_NE x x)) eqn:E; auto.
  right; left. rewrite mult_sign; auto. apply xorb_nilpotent.
Qed.

Lemma nonneg_arg : forall b : binary64, Bleb (b64_ofZ 0) b = true ->
  match b with B754_zero _ | B754_finite false _ _ _ | B754_infinity false => True | _ => False end.
Proof. intros b H. destruct b as [[]|[]| |[] m e B]; try discriminate; exact Logic.I. Qed.

Lemma term_nob : forall x b : binary64, Bleb (b64_ofZ 0) b = true ->
  nonneg_or_bad (Bmult mode_NE (Bmult mode_NE x x) b) = true.
Proof.
  intros x b Hb. apply nob_sign. apply nonneg_arg in Hb.
  destruct (is_nan (Bmult mode_NE (Bmult mode_NE x x) b)) eqn:E; auto. right.
  assert (Hn : is_nan (Bmult mode_NE x x) = false).
  { destruct (Bmult mode_NE x x); auto. }
  assert (S0 := mult_sign _ _ Hn). rewrite xorb_nilpotent in S0.
  destruct b as [[]|[]| |[] m e B]; try contradiction.
  2-4: left; rewrite mult_sign by exact E; rewrite S0; reflexivity.
  right. destruct (Bmult mode_NE x x) as [s|s| |s m e B]; cbn in S0, Hn; try discriminate; subst; reflexivity.
Qed.

Lemma term_bad : forall x b : binary64, ~ fin x -> Bleb (b64_ofZ 0) b = true ->
  bad (Bmult mode_NE (Bmult mode_NE x x) b) = true.
Proof.
  intros x b Hx Hb. apply nonneg_arg in Hb.
  destruct x as [s|s| |s m e B]; try (exfalso; apply Hx; reflexivity).
  - destruct s; destruct b as [[]|[]| |[] m e B]; try contradiction; reflexivity.
  - destruct b; reflexivity.
Qed.

Lemma plus_bad : forall u v : binary64, nonneg_or_bad u = true -> nonneg_or_bad v = true ->
  bad u = true \/ bad v = true -> bad (Bplus mode_NE u v) = true.
Proof.
  intros u v Hu Hv H.
  destruct u as [[]|[]| |[] m e B]; try discriminate; destruct v as [[]|[]| |[] m' e' B']; try discriminate;
    try reflexivity; exfalso; destruct H; discriminate.
Qed.

Lemma ellipse_nonfin : forall a2 b2 ab x y : binary64,
  Bleb (b64_ofZ 0) a2 = true -> Bleb (b64_ofZ 0) b2 = true -> fin ab -> ~ (fin x /\ fin y) ->
  Bleb (Bplus mode_NE (Bmult mode_NE (Bmult mode_NE x x) b2) (Bmult mode_NE (Bmult mode_NE y y) a2)) ab = false.
Proof.
  intros a2 b2 ab x y Ha Hb Hf Hn. apply bad_le; auto. apply plus_bad; try (apply term_nob; assumption).
  destruct (is_finite x) eqn:Ex.
  - right. apply term_bad; auto. 
  - left. apply term_bad; auto. unfold fin; congruence.
Qed.

(* ---- relative errors ---- *)
Definition M : R := 2 ^ 250.
Definition u64 : R := / 2 ^ 53.

Lemma pow_bpow : forall n : nat, bpow radix2 (Z.of_nat n) = 2 ^ n.
Proof. intros. rewrite <- IZR_Zpower by lia. cbn [radix_val radix2]. rewrite pow_IZR. reflexivity. Qed.

Lemma M4 : M ^ 4 = bpow radix2 1000.
Proof. unfold M. rewrite <- pow_mult. symmetry. exact (pow_bpow 1000). Qed.

Lemma u64_bpow : u64 = / 2 * bpow radix2 (- prec64 + 1).
Proof.
  unfold u64, prec64. change (bpow radix2 (Z.opp 53 + 1)) with (bpow radix2 (Z.opp 52)). rewrite (bpow_opp radix2 52).
  change 52%Z with (Z.of_nat 52). rewrite (pow_bpow 52).
  rewrite <- Rinv_mult. f_equal; ring.
Qed.

Definition rng (r : R) : Prop := r = 0 \/ / M ^ 4 <= Rabs r <= M ^ 4.
Definition rnd64 (r : R) : R := round radix2 (SpecFloat.fexp prec64 emax64) (round_mode mode_NE) r.

Lemma u64_small : 0 < u64 /\ u64 < / 1000.
Proof.
  unfold u64. assert (H : 1000 < 2 ^ 53) by (cbn [pow]; lra). split.
  - apply Rinv_0_lt_compat. lra.
  - apply Rinv_lt_contravar; lra.
Qed.

Lemma rnd_rel : forall r, rng r -> exists e, Rabs e <= u64 /\ rnd64 r = r * (1 + e) /\ Rabs (rnd64 r) < bpow radix2 emax64.
Proof.
  intros r H. destruct u64_small as [U0 U1].
  assert (A : exists e, Rabs e <= u64 /\ rnd64 r = r * (1 + e)).
  { destruct H as [-> | [H1 H2]].
    - exists 0. rewrite Rabs_R0. split; [lra|]. unfold rnd64. rewrite round_0; [ring|apply valid_rnd_round_mode].
    - rewrite u64_bpow. apply (relative_error_N_FLT_ex radix2 (3 - emax64 - prec64) prec64 eq_refl (fun x => negb (Z.even x))).
      rewrite M4, <- bpow_opp in H1. eapply Rle_trans; [|exact H1]. apply bpow_le. unfold emax64, prec64. lia. }
  destruct A as (e & E1 & E2). exists e. split; auto. split; auto. rewrite E2.
  rewrite Rabs_mult.
  assert (B : Rabs r <= M ^ 4). { destruct H as [-> | H]; [|tauto]. rewrite Rabs_R0. rewrite M4. apply bpow_ge_0. }
  assert (C : Rabs (1 + e) <= 2). { apply Rabs_le. apply Rabs_le_inv in E1. lra. }
  apply Rle_lt_trans with (M ^ 4 * 2).
  - apply Rmult_le_compat; auto; apply Rabs_pos.
  - rewrite M4. change 2 with (bpow radix2 1). rewrite <- bpow_plus. apply bpow_lt. unfold emax64. lia.
Qed.

Lemma mult_rel : forall x y : binary64, fin x -> fin y -> rng (val x * val y) ->
  exists e, Rabs e <= u64 /\ val (Bmult mode_NE x y) = val x * val y * (1 + e) /\ fin (Bmult mode_NE x y).
Proof.
  intros x y Hx Hy H. destruct (rnd_rel _ H) as (e & E1 & E2 & E3).
  pose proof (Bmult_correct prec64 emax64 _ _ mode_NE x y) as C. fold (val x) (val y) in C. fold (rnd64 (val x * val y)) in C.
  rewrite Rlt_bool_true in C by exact E3. destruct C as (C1 & C2 & _).
  exists e. split; auto. split; [unfold val at 1; rewrite C1; exact E2|]. unfold fin. rewrite C2, Hx, Hy. reflexivity.
Qed.

Lemma plus_rel : forall x y : binary64, fin x -> fin y -> rng (val x + val y) ->
  exists e, Rabs e <= u64 /\ val (Bplus mode_NE x y) = (val x + val y) * (1 + e) /\ fin (Bplus mode_NE x y).
Proof.
  intros x y Hx Hy H. destruct (rnd_rel _ H) as (e & E1 & E2 & E3).
  pose proof (Bplus_correct prec64 emax64 _ _ mode_NE x y Hx Hy) as C. fold (val x) (val y) in C. fold (rnd64 (val x + val y)) in C.
  rewrite Rlt_bool_true in C by exact E3. destruct C as (C1 & C2 & _).
  exists e. split; auto. split; [unfold val at 1; rewrite C1; exact E2|]. exact C2.
Qed.

Lemma margin_up : forall u, 0 < u < / 1000 -> (1 - 8 * u) * ((1 + u) * (1 + u)) * (1 + u) <= 1 - u.
Proof.
  intros u H. assert (0 < u * u) by nra. assert (0 < u * u * u) by nra. assert (0 < u * u * u * u) by nra.
  replace ((1 - 8 * u) * ((1 + u) * (1 + u)) * (1 + u)) with
    (1 - 5 * u - 21 * (u * u) - 23 * (u * u * u) - 8 * (u * u * u * u)) by ring. lra.
Qed.
Lemma margin_down : forall u, 0 < u < / 1000 -> 1 + u < (1 + 8 * u) * ((1 - u) * (1 - u)) * (1 - u).
Proof.
  intros u H. assert (0 < u * u) by nra. assert (u * u < u * / 1000) by nra.
  assert (0 < u * u * u) by nra. assert (u * u * u * u < u * u * u) by nra.
  replace ((1 + 8 * u) * ((1 - u) * (1 - u)) * (1 - u)) with
    (1 + 5 * u - 21 * (u * u) + 23 * (u * u * u) - 8 * (u * u * u * u)) by ring. lra.
Qed.

Lemma M_big : 1000 < M.
Proof. unfold M. rewrite <- (pow_bpow 250). change 1000 with (IZR 1000). apply Rlt_trans with (bpow radix2 10); [cbn; lra|]. apply bpow_lt. cbn. lia. Qed.

(* one term x * x * b *)
Lemma term_rel : forall x b : binary64, moderate x -> fin b -> / M <= val b <= M ->
  exists e1 e2, Rabs e1 <= u64 /\ Rabs e2 <= u64 /\
    val (Bmult mode_NE (Bmult mode_NE x x) b) = val x * val x * val b * (1 + e1) * (1 + e2) /\
    fin (Bmult mode_NE (Bmult mode_NE x x) b) /\
    (val x = 0 \/ / M ^ 3 <= val x * val x * val b <= M ^ 3).
Proof.
  intros x b [Fx Hx] Fb Hb. pose proof M_big as HM. destruct u64_small as [U0 U1].
  assert (IM : 0 < / M < / 1000) by (split; [apply Rinv_0_lt_compat; lra|apply Rinv_lt_contravar; lra]).
  fold M in Hx.
  assert (Sq : val x = 0 \/ / M ^ 2 <= val x * val x <= M ^ 2).
  { destruct Hx as [Hx|[H1 H2]]; [left; auto|right].
    replace (val x * val x) with (Rabs (val x) * Rabs (val x)) by (rewrite <- Rabs_mult; apply Rabs_pos_eq; nra).
    rewrite <- pow_inv. cbn [pow]. rewrite !Rmult_1_r. split; apply Rmult_le_compat; lra. }
  assert (T3 : val x = 0 \/ / M ^ 3 <= val x * val x * val b <= M ^ 3).
  { destruct Sq as [Sq|[S1 S2]]; [left; auto|right].
    rewrite <- pow_inv in *. assert (0 < (/ M) ^ 2) by (apply pow_lt; lra).
    replace ((/ M) ^ 3) with ((/ M) ^ 2 * / M) by ring. replace (M ^ 3) with (M ^ 2 * M) by ring.
    split; apply Rmult_le_compat; lra. }
  assert (P2 : 1 <= M ^ 2) by (apply pow_R1_Rle; lra).
  assert (P3 : 1 <= M ^ 3) by (apply pow_R1_Rle; lra).
  assert (P4 : 1000 * M ^ 3 <= M ^ 4). { replace (M ^ 4) with (M * M ^ 3) by ring. apply Rmult_le_compat_r; lra. }
  assert (P5 : 1000 * M ^ 2 <= M ^ 4). { replace (M ^ 4) with (M ^ 2 * M ^ 2) by ring. replace (M ^ 2) with (M * M) at 2 by ring. nra. }
  assert (I2 : / M ^ 4 <= / M ^ 2 / 1000). { unfold Rdiv. rewrite <- Rinv_mult. apply Rinv_le_contravar; nra. }
  assert (I3 : / M ^ 4 <= / M ^ 3 / 1000). { unfold Rdiv. rewrite <- Rinv_mult. apply Rinv_le_contravar; nra. }
  assert (J2 : 0 < / M ^ 2) by (apply Rinv_0_lt_compat; lra).
  assert (J3 : 0 < / M ^ 3) by (apply Rinv_0_lt_compat; lra).
  destruct (mult_rel x x Fx Fx) as (e1 & E1 & V1 & F1).
  { destruct Sq as [Sq|Sq]; [left; rewrite Sq; ring|right]. rewrite Rabs_pos_eq by nra. lra. }
  destruct (mult_rel (Bmult mode_NE x x) b F1 Fb) as (e2 & E2 & V2 & F2).
  { rewrite V1. apply Rabs_le_inv in E1.
    destruct T3 as [T3|T3]; [left; rewrite T3; ring|right].
    replace (val x * val x * (1 + e1) * val b) with ((val x * val x * val b) * (1 + e1)) by ring.
    set (t := val x * val x * val b) in *. assert (0 < t) by lra.
    assert (B1 : t * / 2 <= t * (1 + e1)) by (apply Rmult_le_compat_l; lra).
    assert (B2 : t * (1 + e1) <= t * 2) by (apply Rmult_le_compat_l; lra).
    rewrite Rabs_pos_eq by lra. lra. }
  exists e1, e2. rewrite V2, V1. repeat split; auto. ring.
Qed.

Lemma ellipse_rel : forall a2 b2 x y : binary64,
  fin a2 -> fin b2 -> / M <= val a2 <= M -> / M <= val b2 <= M -> moderate x -> moderate y ->
  let ok := Bleb (Bplus mode_NE (Bmult mode_NE (Bmult mode_NE x x) b2) (Bmult mode_NE (Bmult mode_NE y y) a2)) (Bmult mode_NE a2 b2) in
  let r := val x ^ 2 / val a2 + val y ^ 2 / val b2 in
  (r <= 1 - 8 * u64 -> ok = true) /\ (1 + 8 * u64 <= r -> ok = false).
Proof.
  intros a2 b2 x y Fa Fb Ha Hb Hx Hy ok r.
  destruct (term_rel x b2 Hx Fb Hb) as (e1 & e2 & E1 & E2 & V1 & F1 & T1).
  destruct (term_rel y a2 Hy Fa Ha) as (e3 & e4 & E3 & E4 & V2 & F2 & T2).
  pose proof M_big as HM. destruct u64_small as [U0 U1].
  assert (P3 : 1 <= M ^ 3) by (apply pow_R1_Rle; lra).
  assert (P4 : 1000 * M ^ 3 <= M ^ 4). { replace (M ^ 4) with (M * M ^ 3) by ring. apply Rmult_le_compat_r; lra. }
  assert (P2 : 1 <= M ^ 2) by (apply pow_R1_Rle; lra).
  assert (P24 : M ^ 2 <= M ^ 4) by (apply Rle_pow; [lra|lia]).
  assert (I3 : / M ^ 4 <= / M ^ 3 / 1000). { unfold Rdiv. rewrite <- Rinv_mult. apply Rinv_le_contravar; nra. }
  assert (J3 : 0 < / M ^ 3) by (apply Rinv_0_lt_compat; lra).
  assert (J1 : 0 < / M) by (apply Rinv_0_lt_compat; lra).
  set (A := val a2) in *. set (B := val b2) in *. set (X := val x) in *. set (Y := val y) in *.
  apply Rabs_le_inv in E1. apply Rabs_le_inv in E2. apply Rabs_le_inv in E3. apply Rabs_le_inv in E4.
  set (t1 := X * X * B) in *. set (t2 := Y * Y * A) in *.
  assert (T1' : t1 = 0 \/ / M ^ 3 <= t1 <= M ^ 3). { destruct T1 as [T1|T1]; [left; unfold t1; rewrite T1; ring|auto]. }
  assert (T2' : t2 = 0 \/ / M ^ 3 <= t2 <= M ^ 3). { destruct T2 as [T2|T2]; [left; unfold t2; rewrite T2; ring|auto]. }
  assert (N1 : 0 <= t1) by (destruct T1'; lra). assert (N2 : 0 <= t2) by (destruct T2'; lra).
  assert (D : forall e f, -u64 <= e <= u64 -> -u64 <= f <= u64 -> 
     (1 - u64) * (1 - u64) <= (1 + e) * (1 + f) <= (1 + u64) * (1 + u64)).
  { intros e f He Hf. split; apply Rmult_le_compat; lra. }
  pose proof (D e1 e2 E1 E2) as D1. pose proof (D e3 e4 E3 E4) as D2. clear D.
  assert (L1 : t1 * ((1 - u64) * (1 - u64)) <= t1 * ((1 + e1) * (1 + e2)) <= t1 * ((1 + u64) * (1 + u64))).
  { split; apply Rmult_le_compat_l; lra. }
  assert (L2 : t2 * ((1 - u64) * (1 - u64)) <= t2 * ((1 + e3) * (1 + e4)) <= t2 * ((1 + u64) * (1 + u64))).
  { split; apply Rmult_le_compat_l; lra. }
  assert (Half : / 2 <= (1 - u64) * (1 - u64)) by nra.
  assert (Two : (1 + u64) * (1 + u64) <= 2) by nra.
  destruct (plus_rel _ _ F1 F2) as (e5 & E5 & V5 & F5).
  { rewrite V1, V2. rewrite !(Rmult_assoc _ (1 + _) (1 + _)).
    assert (Q1 : t1 * / 2 <= t1 * ((1 - u64) * (1 - u64))) by (apply Rmult_le_compat_l; lra).
    assert (Q2 : t2 * / 2 <= t2 * ((1 - u64) * (1 - u64))) by (apply Rmult_le_compat_l; lra).
    assert (Q3 : t1 * ((1 + u64) * (1 + u64)) <= t1 * 2) by (apply Rmult_le_compat_l; lra).
    assert (Q4 : t2 * ((1 + u64) * (1 + u64)) <= t2 * 2) by (apply Rmult_le_compat_l; lra).
    destruct T1' as [Z1|T1']; destruct T2' as [Z2|T2'].
    - left. rewrite Z1, Z2. ring.
    - right. rewrite Rabs_pos_eq by lra. lra.
    - right. rewrite Rabs_pos_eq by lra. lra.
    - right. rewrite Rabs_pos_eq by lra. lra. }
  destruct (mult_rel a2 b2 Fa Fb) as (e6 & E6 & V6 & F6).
  { right. fold A B. assert (H : / M * / M <= A * B <= M * M) by (split; apply Rmult_le_compat; lra).
    rewrite <- Rinv_mult in H. replace (M * M) with (M ^ 2) in H by ring.
    assert (/ M ^ 4 <= / M ^ 2) by (apply Rinv_le_contravar; lra).
    assert (0 < / M ^ 4) by (apply Rinv_0_lt_compat; lra).
    rewrite Rabs_pos_eq by lra. lra. }
  apply Rabs_le_inv in E5. apply Rabs_le_inv in E6.
  set (S := val (Bplus mode_NE _ _)) in *. rewrite V1, V2 in V5. rewrite !(Rmult_assoc _ (1 + _) (1 + _)) in V5.
  set (P := val (Bmult mode_NE a2 b2)) in *. fold A B in V6.
  assert (AB : 0 < A * B) by (apply Rmult_lt_0_compat; lra).
  assert (Er : t1 + t2 = r * (A * B)). { unfold r, t1, t2. field. lra. }
  assert (HP : A * B * (1 - u64) <= P <= A * B * (1 + u64)). { rewrite V6. split; apply Rmult_le_compat_l; lra. }
  set (w := t1 * ((1 + e1) * (1 + e2)) + t2 * ((1 + e3) * (1 + e4))) in *.
  assert (Hw : (t1 + t2) * ((1 - u64) * (1 - u64)) <= w <= (t1 + t2) * ((1 + u64) * (1 + u64))).
  { unfold w. rewrite !Rmult_plus_distr_r. lra. }
  assert (W0 : 0 <= w). { assert (0 <= (t1 + t2) * ((1 - u64) * (1 - u64))) by (apply Rmult_le_pos; nra). lra. }
  assert (HS : w * (1 - u64) <= S <= w * (1 + u64)). { rewrite V5. split; apply Rmult_le_compat_l; lra. }
  split; intros H.
  - unfold ok. apply fin_le; auto. fold S P.
    assert (K : (t1 + t2) <= (1 - 8 * u64) * (A * B)). { rewrite Er. apply Rmult_le_compat_r; lra. }
    assert (K2 : w <= (1 - 8 * u64) * (A * B) * ((1 + u64) * (1 + u64))).
    { eapply Rle_trans; [apply Hw|]. apply Rmult_le_compat_r; nra. }
    assert (K3 : S <= (1 - 8 * u64) * (A * B) * ((1 + u64) * (1 + u64)) * (1 + u64)).
    { eapply Rle_trans; [apply HS|]. apply Rmult_le_compat_r; lra. }
    assert (K4 : (1 - 8 * u64) * ((1 + u64) * (1 + u64)) * (1 + u64) <= 1 - u64) by (apply margin_up; lra).
    assert (K5 : A * B * ((1 - 8 * u64) * ((1 + u64) * (1 + u64)) * (1 + u64)) <= A * B * (1 - u64)) by (apply Rmult_le_compat_l; lra).
    lra.
  - destruct ok eqn:Ok; auto. exfalso. unfold ok in Ok. apply fin_le in Ok; auto. fold S P in Ok.
    assert (K : (1 + 8 * u64) * (A * B) <= t1 + t2). { rewrite Er. apply Rmult_le_compat_r; lra. }
    assert (K2 : (1 + 8 * u64) * (A * B) * ((1 - u64) * (1 - u64)) <= w).
    { eapply Rle_trans; [|apply Hw]. apply Rmult_le_compat_r; nra. }
    assert (K3 : (1 + 8 * u64) * (A * B) * ((1 - u64) * (1 - u64)) * (1 - u64) <= S).
    { eapply Rle_trans; [|apply HS]. apply Rmult_le_compat_r; lra. }
    assert (K4 : 1 + u64 < (1 + 8 * u64) * ((1 - u64) * (1 - u64)) * (1 - u64)) by (apply margin_down; lra).
    assert (K5 : A * B * (1 + u64) < A * B * ((1 + 8 * u64) * ((1 - u64) * (1 - u64)) * (1 - u64))) by (apply Rmult_lt_compat_l; lra).
    lra.
Qed.

End B64.
