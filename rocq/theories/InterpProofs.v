(** Proofs about one-dimensional interpolation over the reals. *)
From Coq Require Import ZArith Reals Lra Lia Bool.
From Coquelicot Require Import Coquelicot.
From Coq Require Import List.
From Verif Require Import Num Particle MapsR Interp InterpSpec.
Import ListNotations.
Local Open Scope R_scope.

(** ** The index of an abscissa. *)

Lemma Int_part_unique x (n : Z) : IZR n <= x < IZR n + 1 -> Int_part x = n.
Proof.
  intros [H1 H2]. destruct (base_Int_part x) as [B1 B2].
  assert (L1 : IZR n < IZR (Int_part x) + 1) by lra.
  assert (L2 : IZR (Int_part x) < IZR n + 1) by lra.
  rewrite <- plus_IZR in L1, L2. apply lt_IZR in L1, L2. lia.
Qed.

Lemma index_at x x0 dx i : 0 < dx -> (Z.of_nat i < 2 ^ 62)%Z ->
  knot x0 dx i <= x < knot x0 dx (S i) ->
  abscissa_index ROps x x0 dx = Some (Z.of_nat i).
Proof.
  intros Hd Hi [H1 H2]. unfold abscissa_index. rops. unfold knot in *.
  rewrite S_INR in H2.
  assert (U : INR i <= (x - x0) / dx < INR i + 1).
  { split.
    - apply Rmult_le_reg_r with dx; [lra |]. unfold Rdiv. rewrite Rmult_assoc, Rinv_l by lra. lra.
    - apply Rmult_lt_reg_r with dx; [lra |]. unfold Rdiv. rewrite Rmult_assoc, Rinv_l by lra. lra. }
  set (u := (x - x0) / dx) in *. clearbody u.
  assert (P : 0 <= INR i) by apply pos_INR.
  unfold RtruncZ.
  destruct (Rlt_dec (Rabs u) (IZR (2 ^ 63))) as [L | L].
  - destruct (Rle_dec 0 u); [| lra]. f_equal. apply Int_part_unique.
    rewrite <- INR_IZR_INZ. lra.
  - exfalso. apply L. rewrite Rabs_pos_eq by lra.
    assert (IZR (Z.of_nat i) < IZR (2 ^ 62)) by now apply IZR_lt.
    rewrite <- INR_IZR_INZ in H. change (2 ^ 63)%Z with (2 * 2 ^ 62)%Z. rewrite mult_IZR.
    assert (1 < IZR (2 ^ 62)). { change 1 with (IZR 1). apply IZR_lt. reflexivity. }
    lra.
Qed.

Lemma arr_at_nth {A} (l : list A) i d : (i < length l)%nat -> arr_at l (Z.of_nat i) = Some (nth i l d).
Proof.
  intro H. unfold arr_at. destruct (Z.ltb_spec (Z.of_nat i) 0); [lia |].
  rewrite Nat2Z.id. now apply nth_error_nth'.
Qed.

Lemma IZR_of_nat i : IZR (Z.of_nat i) = INR i.
Proof. symmetry. apply INR_IZR_INZ. Qed.

(** ** Linear interpolation. *)

Lemma linear_prepare_nth yp y dx n yp' : linear_prepare ROps yp y dx (Z.of_nat n) = Some yp' ->
  (n <= length y)%nat -> (n <= length yp)%nat ->
  0 < dx /\ (1 < n)%nat /\ length yp' = length yp /\
  (forall i, (S i < n)%nat -> nth i yp' 0 = (nth (S i) y 0 - nth i y 0) / dx) /\
  (forall i, (n <= S i)%nat -> nth i yp' 0 = nth i yp 0).
Proof.
  unfold linear_prepare. rops. intros H Ly Lyp.
  destruct (Rltb 0 dx) eqn:E1; [| discriminate]. apply Rltb_true in E1.
  destruct (Z.ltb_spec 1 (Z.of_nat n)); [| discriminate].
  cbn [andb] in H.
  replace (Z.to_nat (Z.of_nat n - 1)) with (n - 1)%nat in H by lia.
  match type of H with Some ?q = _ => assert (E : yp' = q) by congruence end. clear H.
  split; [auto |]. split; [lia |].
  assert (L : length yp' = length yp).
  { rewrite E, app_length, map_length, seq_length, skipn_length. lia. }
  split; [exact L |]. split; intros i Hi; rewrite E.
  - rewrite app_nth1 by (rewrite map_length, seq_length; lia).
    rewrite nth_indep with (d' := (fun i => (nth (S i) y 0 - nth i y 0) / dx) 0%nat)
      by (rewrite map_length, seq_length; lia).
    rewrite (map_nth (fun i => (nth (S i) y 0 - nth i y 0) / dx)).
    rewrite seq_nth by lia. reflexivity.
  - rewrite app_nth2 by (rewrite map_length, seq_length; lia).
    rewrite map_length, seq_length.
    destruct (Nat.lt_ge_cases i (length yp)) as [B | B].
    + rewrite <- (firstn_skipn (n - 1) yp) at 2.
      rewrite (app_nth2 (firstn (n - 1) yp)) by (rewrite firstn_length; lia).
      rewrite firstn_length, Nat.min_l by lia. reflexivity.
    + rewrite !nth_overflow; auto. rewrite skipn_length. lia.
Qed.

Lemma linear_y_at x x0 dx (y yp : list R) i : 0 < dx -> (Z.of_nat i < 2 ^ 62)%Z ->
  knot x0 dx i <= x < knot x0 dx (S i) -> (i < length y)%nat -> (i < length yp)%nat ->
  linear_y ROps x x0 dx y yp = Some (nth i y 0 + (x - knot x0 dx i) * nth i yp 0) /\
  linear_yp ROps x x0 dx yp = Some (nth i yp 0).
Proof.
  intros Hd Hi Hx L1 L2. unfold linear_y, linear_yp. rewrite (index_at _ _ _ _ Hd Hi Hx). cbn [obind].
  rewrite (arr_at_nth y i 0), (arr_at_nth yp i 0) by auto. cbn [obind]. rops.
  rewrite IZR_of_nat. auto.
Qed.

(** ** The tridiagonal system. *)

Section Thomas.
Variables (h : R) (g dy : nat -> R) (m : nat).
Hypothesis h_pos : 0 < h.
Hypothesis g_first : 3 * h <= g 1%nat.
Hypothesis g_inner : forall i, (1 < i < m + 1)%nat -> g i = 4 * h.
Hypothesis g_last : 3 * h <= g (m + 1)%nat.

Let H := fun _ : nat => h.

Lemma pivot_lower i : (i < m)%nat -> 3 * h <= fst (cubic_fwd ROps H g dy i).
Proof using h_pos g_first g_inner.
  induction i as [| i IH]; intro Hi.
  - cbn [cubic_fwd fst]. exact g_first.
  - cbn [cubic_fwd fst]. rops.
    set (d := fst (cubic_fwd ROps H g dy i)) in *. unfold H. specialize (IH ltac:(lia)).
    rewrite g_inner by lia.
    assert (h / d <= 1).
    { apply Rmult_le_reg_r with d; [lra |]. unfold Rdiv. rewrite Rmult_assoc, Rinv_l by lra. lra. }
    assert (h / d * h <= 1 * h) by (apply Rmult_le_compat_r; lra). lra.
Qed.

Lemma pivot_pos i : (i <= m)%nat -> 0 < fst (cubic_fwd ROps H g dy i).
Proof using h_pos g_first g_inner g_last.
  intro Hi. destruct (Nat.eq_dec i m) as [-> | N].
  - pose proof pivot_lower as PL. clear Hi.
    assert (Z : m = 0%nat \/ exists m', m = S m') by (destruct m; eauto).
    destruct Z as [Z | [m' Z]]; [rewrite Z; cbn [cubic_fwd fst]; lra |].
    pose proof (PL m' ltac:(lia)) as B. pose proof g_last as GL. rewrite Z in GL |- *.
    cbn [cubic_fwd fst]. rops.
    set (d := fst (cubic_fwd ROps H g dy m')) in *. unfold H.
    assert (h / d <= 1).
    { apply Rmult_le_reg_r with d; [lra |]. unfold Rdiv. rewrite Rmult_assoc, Rinv_l by lra. lra. }
    assert (h / d * h <= 1 * h) by (apply Rmult_le_compat_r; lra).
    lra.
  - pose proof (pivot_lower i ltac:(lia)). lra.
Qed.

(** The solution, numbered like the abscissas: rows 1 .. m + 1. *)
Definition sol (r : nat) : R := cubic_bwd ROps H g dy m (m + 1 - r).

Lemma sol_last : fst (cubic_fwd ROps H g dy m) * sol (m + 1) = snd (cubic_fwd ROps H g dy m).
Proof using h_pos g_first g_inner g_last.
  unfold sol. rewrite Nat.sub_diag. cbn [cubic_bwd]. rops. field.
  pose proof (pivot_pos m ltac:(lia)). lra.
Qed.

Lemma sol_step i : (i < m)%nat ->
  fst (cubic_fwd ROps H g dy i) * sol (i + 1) + h * sol (i + 2) = snd (cubic_fwd ROps H g dy i).
Proof using h_pos g_first g_inner g_last.
  intro Hi. unfold sol.
  replace (m + 1 - (i + 1))%nat with (S (m + 1 - (i + 2))) by lia.
  cbn [cubic_bwd]. rops.
  replace (m - S (m + 1 - (i + 2)))%nat with i by lia.
  set (b := cubic_bwd ROps H g dy m (m + 1 - (i + 2))). 
  set (dd := fst (cubic_fwd ROps H g dy i)) in *. unfold H.
  pose proof (pivot_pos i ltac:(lia)) as D. fold dd in D. field. lra.
Qed.

(** Rows of the system, with the missing neighbours counted as 0. *)
Lemma row_first : g 1%nat * sol 1 + (if Nat.eqb m 0 then 0 else h * sol 2) = dy 1%nat.
Proof using h_pos g_first g_inner g_last.
  destruct (Nat.eqb_spec m 0) as [E | E].
  - pose proof sol_last as L.
    assert (C : forall k, k = 0%nat -> fst (cubic_fwd ROps H g dy k) = g 1%nat /\
                          snd (cubic_fwd ROps H g dy k) = dy 1%nat) by (intros k ->; auto).
    destruct (C m E) as [C1 C2]. rewrite C1, C2 in L.
    replace (m + 1)%nat with 1%nat in L by lia. lra.
  - pose proof (sol_step 0 ltac:(lia)) as L. cbn [cubic_fwd fst snd Nat.add] in L. lra.
Qed.

Lemma row_inner i : (1 <= i <= m)%nat ->
  h * sol i + g (i + 1)%nat * sol (i + 1) + (if Nat.eqb i m then 0 else h * sol (i + 2)) = dy (i + 1)%nat.
Proof using h_pos g_first g_inner g_last.
  intros [H1 H2]. destruct i as [| i]; [lia |].
  pose proof (sol_step i ltac:(lia)) as S1.
  pose proof (pivot_pos i ltac:(lia)) as D1.
  assert (S2 : fst (cubic_fwd ROps H g dy (S i)) * sol (S i + 1) + (if Nat.eqb (S i) m then 0 else h * sol (S i + 2))
     = snd (cubic_fwd ROps H g dy (S i))).
  { destruct (Nat.eqb_spec (S i) m) as [-> | N].
    - pose proof sol_last. lra.
    - pose proof (sol_step (S i) ltac:(lia)). lra. }
  cbn [cubic_fwd fst snd] in S2. rops.
  set (d := fst (cubic_fwd ROps H g dy i)) in *. set (s := snd (cubic_fwd ROps H g dy i)) in *.
  unfold H in S2.
  replace (i + 2)%nat with (S i + 1)%nat in S1 by lia.
  replace (i + 1)%nat with (S i) in S1 by lia.
  set (a := sol (S i)) in *. set (b := sol (S i + 1)) in *.
  assert (E : h / d * s = h * a + h / d * h * b).
  { rewrite <- S1. field. lra. }
  lra.
Qed.
End Thomas.

(** ** Preparation of the cubic interpolation. *)

Definition gb (b : boundary) (p : R) : R := match b with BProportional => p | _ => 0 end.
Definition db (b : boundary) (p : R) : R := match b with BClamped => p | _ => 0 end.

Lemma coefficients (y : nat -> R) dx n bt et bp ep : (3 < n)%nat -> supported bt bp -> supported et ep ->
  exists g dy,
  cubic_end ROps n et ep (cubic_begin ROps bt bp (cubic_h0 dx, cubic_g0 ROps dx n, cubic_dy0 ROps y dx n))
  = (fun _ : nat => dx, g, dy) /\
  g 1%nat = (4 + gb bt bp) * dx /\ g (n - 2)%nat = (4 + gb et ep) * dx /\
  (forall i, (1 < i < n - 2)%nat -> g i = 4 * dx) /\
  (forall i, (1 <= i <= n - 2)%nat -> dy i =
     6 * ((y (i + 1)%nat - y i) / dx - (y i - y (i - 1)%nat) / dx)
     - (if Nat.eqb i 1 then db bt bp * dx else 0) - (if Nat.eqb i (n - 2) then db et ep * dx else 0)).
Proof.
  intros Hn Sb Se.
  assert (G : forall i, (1 <= i <= n - 2)%nat -> cubic_g0 ROps dx n i = 4 * dx).
  { intros i Hi. unfold cubic_g0. rops.
    destruct (Nat.eqb_spec i 0); [lia |]. destruct (Nat.eqb_spec i (n - 1)); [lia |]. cbn [orb]. ring. }
  assert (D : forall i, (1 <= i <= n - 2)%nat -> cubic_dy0 ROps y dx n i =
     6 * ((y (i + 1)%nat - y i) / dx - (y i - y (i - 1)%nat) / dx)).
  { intros i Hi. unfold cubic_dy0. rops.
    destruct (Nat.eqb_spec i 0); [lia |]. destruct (Nat.eqb_spec i (n - 1)); [lia |]. cbn [orb]. ring. }
  assert (A1 : forall (a : nat -> R) i v, aset a i v i = v) by (intros; unfold aset; now rewrite Nat.eqb_refl).
  assert (A2 : forall (a : nat -> R) i j v, j <> i -> aset a i v j = a j).
  { intros a i j v N. unfold aset. destruct (Nat.eqb_spec j i); [contradiction | reflexivity]. }
  destruct bt, et; cbn [supported] in Sb, Se; try contradiction;
  (eexists; eexists; split; [reflexivity |]); cbn [gb db]; rops; cbv beta;
  (split; [| split; [| split]]);
  try (intros i Hi);
  repeat first [ rewrite A1 | rewrite A2 by lia | rewrite G by lia ]; unfold cubic_h0; try ring;
  destruct (Nat.eqb_spec i 1) as [E1 | E1]; destruct (Nat.eqb_spec i (n - 2)) as [E2 | E2]; try (exfalso; lia);
  try rewrite E1; try rewrite E2;
  repeat first [ rewrite A1 | rewrite A2 by lia | rewrite D by lia ]; unfold cubic_h0; try ring.
Qed.

(** The prepared second derivatives satisfy the equations of a twice continuously
    differentiable cubic interpolation and the end conditions. *)
Lemma cubic_prepare_system ypp0 y dx n bt et bp ep M :
  cubic_prepare ROps ypp0 y dx (Z.of_nat n) bt et bp ep = Some M ->
  supported bt bp -> supported et ep ->
  0 < dx /\ (3 < n)%nat /\
  end_condition bt bp (M 0%nat) (M 1%nat) /\ end_condition et ep (M (n - 1)%nat) (M (n - 2)%nat) /\
  forall r, (1 <= r <= n - 2)%nat ->
    dx * M (r - 1)%nat + 4 * dx * M r + dx * M (r + 1)%nat
    = 6 * ((y (r + 1)%nat - y r) / dx - (y r - y (r - 1)%nat) / dx).
Proof.
  unfold cubic_prepare. intros H Sb Se. rops.
  destruct (Rltb 0 dx) eqn:E1; [| discriminate]. apply Rltb_true in E1.
  destruct (Z.ltb_spec 3 (Z.of_nat n)) as [Hn |]; [| discriminate]. cbn [andb] in H.
  rewrite Nat2Z.id in H. assert (Hn' : (3 < n)%nat) by lia.
  destruct (coefficients y dx n bt et bp ep Hn' Sb Se) as [g [dy [E [G1 [G2 [Gi D]]]]]].
  rewrite E in H.
  match type of H with Some ?q = _ => assert (EM : M = q) by congruence end. clear H E.
  set (s := sol dx g dy (n - 3)).
  assert (Pb : -1 <= gb bt bp) by (destruct bt; cbn in *; lra).
  assert (Pe : -1 <= gb et ep) by (destruct et; cbn in *; lra).
  assert (F1 : 3 * dx <= g 1%nat) by (rewrite G1; nra).
  assert (F2 : forall i, (1 < i < n - 3 + 1)%nat -> g i = 4 * dx) by (intros; apply Gi; lia).
  assert (F3 : 3 * dx <= g (n - 3 + 1)%nat)
    by (replace (n - 3 + 1)%nat with (n - 2)%nat by lia; rewrite G2; nra).
  assert (Inner : forall i, (1 <= i <= n - 2)%nat ->
     cubic_bwd ROps (fun _ : nat => dx) g dy (n - 3) (n - 2 - i) = s i).
  { intros i Hi. unfold s, sol. f_equal. lia. }
  assert (Mi : forall i, (1 <= i <= n - 2)%nat -> M i = s i).
  { intros i Hi. rewrite EM. destruct (Nat.eqb_spec i 0); [lia |].
    destruct (Nat.eqb_spec i (n - 1)); [lia |]. destruct (Nat.ltb_spec i (n - 1)); [| lia]. now apply Inner. }
  assert (M0 : M 0%nat = db bt bp + gb bt bp * s 1%nat).
  { rewrite EM. cbn [Nat.eqb]. rewrite (Inner 1%nat) by lia.
    destruct bt; cbn [db gb supported] in *; try ring. contradiction. }
  assert (ML : M (n - 1)%nat = db et ep + gb et ep * s (n - 2)%nat).
  { rewrite EM. destruct (Nat.eqb_spec (n - 1) 0); [lia |]. rewrite Nat.eqb_refl. rewrite (Inner (n - 2)%nat) by lia.
    destruct et; cbn [db gb supported] in *; try ring. contradiction. }
  split; [auto |]. split; [auto |].
  split. { rewrite M0, (Mi 1%nat) by lia. destruct bt; cbn [db gb supported end_condition] in *; try ring; contradiction. }
  split. { rewrite ML, (Mi (n - 2)%nat) by lia. destruct et; cbn [db gb supported end_condition] in *; try ring; contradiction. }
  intros r Hr.
  pose proof (D r Hr) as Dr.
  destruct (Nat.eq_dec r 1) as [-> | N1].
  - pose proof (row_first dx g dy (n - 3) E1 F1 F2 F3) as RF. fold s in RF.
    destruct (Nat.eqb_spec (n - 3) 0); [lia |].
    destruct (Nat.eqb_spec 1 (n - 2)); [lia |]. change (Nat.eqb 1 1) with true in Dr. cbv iota in Dr.
    change (1 - 1)%nat with 0%nat in *.
    rewrite M0, (Mi 1%nat), (Mi (1 + 1)%nat) by lia. cbn [Nat.add] in *. rewrite G1 in RF. lra.
  - pose proof (row_inner dx g dy (n - 3) E1 F1 F2 F3 (r - 1) ltac:(lia)) as RI. fold s in RI.
    replace (r - 1 + 1)%nat with r in RI by lia. replace (r - 1 + 2)%nat with (r + 1)%nat in RI by lia.
    destruct (Nat.eqb_spec r 1); [contradiction |].
    rewrite (Mi (r - 1)%nat), (Mi r) by lia.
    destruct (Nat.eqb_spec r (n - 2)) as [N2 | N2].
    + destruct (Nat.eqb_spec (r - 1) (n - 3)); [| lia].
      replace (r + 1)%nat with (n - 1)%nat in * by lia. rewrite ML. rewrite <- N2 in *. rewrite G2 in RI. lra.
    + destruct (Nat.eqb_spec (r - 1) (n - 3)); [lia |].
      rewrite (Mi (r + 1)%nat) by lia. rewrite Gi in RI by lia. lra.
Qed.

(** ** Gluing functions at a point. *)

Definition glue (a : R) (f g : R -> R) : R -> R := fun x => if Rle_dec a x then g x else f x.

Lemma glue_derive a f g f' g' :
  (forall x, is_derive f x (f' x)) -> (forall x, is_derive g x (g' x)) ->
  f a = g a -> f' a = g' a -> forall x, is_derive (glue a f g) x (glue a f' g' x).
Proof.
  intros Hf Hg E E' x. destruct (Req_dec x a) as [-> | N].
  - apply is_derive_Reals. intros eps He.
    pose proof (proj1 (is_derive_Reals _ _ _) (Hf a) eps He) as [d1 D1].
    pose proof (proj1 (is_derive_Reals _ _ _) (Hg a) eps He) as [d2 D2].
    assert (P : 0 < Rmin d1 d2) by (apply Rmin_pos; [apply d1 | apply d2]).
    exists (mkposreal _ P). intros h Hh Hd. cbn [pos] in Hd.
    assert (L1 : Rabs h < d1) by (eapply Rlt_le_trans; [exact Hd | apply Rmin_l]).
    assert (L2 : Rabs h < d2) by (eapply Rlt_le_trans; [exact Hd | apply Rmin_r]).
    unfold glue. destruct (Rle_dec a a); [| lra].
    destruct (Rle_dec a (a + h)).
    + apply D2; auto.
    + rewrite <- E, <- E'. apply D1; auto.
  - assert (P : 0 < Rabs (x - a)) by (apply Rabs_pos_lt; lra).
    destruct (Rle_dec a x) as [L | L].
    + unfold glue at 2. destruct (Rle_dec a x); [| contradiction].
      apply is_derive_ext_loc with g; [| apply Hg].
      exists (mkposreal _ P). intros t Ht. cbn in Ht. unfold AbsRing_ball, abs, minus, plus, opp in Ht. cbn in Ht.
      unfold glue. destruct (Rle_dec a t); [reflexivity |]. exfalso.
      rewrite (Rabs_pos_eq (x - a)) in Ht by lra. apply Rabs_def2 in Ht. lra.
    + unfold glue at 2. destruct (Rle_dec a x); [contradiction |].
      apply is_derive_ext_loc with f; [| apply Hf].
      exists (mkposreal _ P). intros t Ht. cbn in Ht. unfold AbsRing_ball, abs, minus, plus, opp in Ht. cbn in Ht.
      unfold glue. destruct (Rle_dec a t); [| reflexivity]. exfalso.
      rewrite (Rabs_left (x - a)) in Ht by lra. apply Rabs_def2 in Ht. lra.
Qed.

Lemma glue_continuous a f g : (forall x : R, continuous f x) -> (forall x : R, continuous g x) -> f a = g a ->
  forall x, continuous (glue a f g) x.
Proof.
  intros Hf Hg E x. apply filterlim_locally. intro eps.
  pose proof (proj1 (filterlim_locally _ _) (Hf x) eps) as [d1 D1].
  pose proof (proj1 (filterlim_locally _ _) (Hg x) eps) as [d2 D2].
  destruct (Req_dec x a) as [-> | N].
  - assert (P : 0 < Rmin d1 d2) by (apply Rmin_pos; [apply d1 | apply d2]).
    exists (mkposreal _ P). intros t Ht.
    assert (T1 : ball a d1 t) by (eapply ball_le; [| exact Ht]; apply Rmin_l).
    assert (T2 : ball a d2 t) by (eapply ball_le; [| exact Ht]; apply Rmin_r).
    unfold glue. destruct (Rle_dec a a); [| lra]. destruct (Rle_dec a t).
    + now apply D2.
    + rewrite <- E. now apply D1.
  - assert (P0 : 0 < Rabs (x - a)) by (apply Rabs_pos_lt; lra).
    assert (P : 0 < Rmin (Rabs (x - a)) (Rmin d1 d2))
      by (apply Rmin_pos; [exact P0 | apply Rmin_pos; [apply d1 | apply d2]]).
    exists (mkposreal _ P). intros t Ht.
    assert (T0 : ball x (Rabs (x - a)) t) by (eapply ball_le; [| exact Ht]; apply Rmin_l).
    assert (Tm : ball x (Rmin d1 d2) t) by (eapply ball_le; [| exact Ht]; apply Rmin_r).
    assert (T1 : ball x d1 t) by (eapply ball_le; [| exact Tm]; apply Rmin_l).
    assert (T2 : ball x d2 t) by (eapply ball_le; [| exact Tm]; apply Rmin_r).
    cbn in T0. unfold AbsRing_ball, abs, minus, plus, opp in T0. cbn in T0.
    unfold glue. destruct (Rle_dec a x) as [L | L].
    + rewrite (Rabs_pos_eq (x - a)) in T0 by lra. apply Rabs_def2 in T0.
      destruct (Rle_dec a t); [now apply D2 | lra].
    + rewrite (Rabs_left (x - a)) in T0 by lra. apply Rabs_def2 in T0.
      destruct (Rle_dec a t); [lra | now apply D1].
Qed.

(** ** The pieces. *)

Section Pieces.
Variables (x0 dx : R) (y M : nat -> R).
Hypothesis dx_pos : 0 < dx.
Let K := knot x0 dx.

Definition piece (i : nat) (x : R) : R :=
  let t2 := (K (S i) - x) / dx in
  let t1 := (x - K i) / dx in
  y (S i) * t1 + y i * t2 - M i * dx * dx * (t2 - t2 * t2 * t2) / 6 - M (S i) * dx * dx * (t1 - t1 * t1 * t1) / 6.
Definition piece1 (i : nat) (x : R) : R :=
  let t2 := (K (S i) - x) / dx in
  let t1 := (x - K i) / dx in
  (y (S i) - y i) / dx - M i * dx * (3 * t2 * t2 - 1) / 6 - M (S i) * dx * (1 - 3 * t1 * t1) / 6.
Definition piece2 (i : nat) (x : R) : R :=
  (M i * (K (S i) - x) + M (S i) * (x - K i)) / dx.

Lemma piece_derive i x : is_derive (piece i) x (piece1 i x).
Proof using dx_pos.
  unfold piece, piece1. auto_derive; [auto |]. field. lra.
Qed.
Lemma piece1_derive i x : is_derive (piece1 i) x (piece2 i x).
Proof using dx_pos.
  unfold piece1, piece2. auto_derive; [auto |]. field. lra.
Qed.
Lemma piece2_derive i x : is_derive (piece2 i) x ((M (S i) - M i) / dx).
Proof using dx_pos.
  unfold piece2. auto_derive; [auto |]. field. lra.
Qed.

Lemma K_S i : K (S i) = K i + dx.
Proof. unfold K, knot. rewrite S_INR. ring. Qed.

Lemma piece_left i : piece i (K i) = y i.
Proof using dx_pos. unfold piece. rewrite K_S. field. lra. Qed.
Lemma piece_right i : piece i (K (S i)) = y (S i).
Proof using dx_pos. unfold piece. rewrite K_S. field. lra. Qed.
Lemma piece1_left i : piece1 i (K i) = (y (S i) - y i) / dx - dx * (2 * M i + M (S i)) / 6.
Proof using dx_pos. unfold piece1. rewrite K_S. field. lra. Qed.
Lemma piece1_right i : piece1 i (K (S i)) = (y (S i) - y i) / dx + dx * (M i + 2 * M (S i)) / 6.
Proof using dx_pos. unfold piece1. rewrite K_S. field. lra. Qed.
Lemma piece2_left i : piece2 i (K i) = M i.
Proof using dx_pos. unfold piece2. rewrite K_S. field. lra. Qed.
Lemma piece2_right i : piece2 i (K (S i)) = M (S i).
Proof using dx_pos. unfold piece2. rewrite K_S. field. lra. Qed.

(** The pieces up to number [k], the first and last one continued to infinity. *)
Fixpoint joined (p : nat -> R -> R) (k : nat) : R -> R :=
  match k with
  | O => p 0%nat
  | S k' => glue (K k) (joined p k') (p k)
  end.

Lemma joined_last p k x : K k <= x -> joined p k x = p k x.
Proof.
  destruct k; cbn [joined]; auto. intro H. unfold glue. destruct (Rle_dec _ _); [reflexivity | contradiction].
Qed.

Lemma K_mono i j : (i <= j)%nat -> K i <= K j.
Proof using dx_pos.
  intro H. induction H; [lra |]. rewrite K_S. lra.
Qed.

Lemma joined_at p k : forall i x, (i <= k)%nat -> K i <= x < K (S i) -> joined p k x = p i x.
Proof using dx_pos.
  induction k as [| k IH]; intros i x Hi Hx.
  - now replace i with 0%nat by lia.
  - destruct (Nat.eq_dec i (S k)) as [-> | N].
    + apply joined_last. lra.
    + cbn [joined]. unfold glue. destruct (Rle_dec (K (S k)) x).
      * pose proof (K_mono (S i) (S k) ltac:(lia)). lra.
      * apply IH; [lia | auto].
Qed.

Variable n : nat.
Hypothesis system : forall r, (1 <= r <= n - 2)%nat ->
    dx * M (r - 1)%nat + 4 * dx * M r + dx * M (r + 1)%nat
    = 6 * ((y (r + 1)%nat - y r) / dx - (y r - y (r - 1)%nat) / dx).

Lemma slopes_match k : (S k <= n - 2)%nat -> piece1 k (K (S k)) = piece1 (S k) (K (S k)).
Proof using dx_pos system.
  intro Hk. rewrite piece1_right, piece1_left. pose proof (system (S k) ltac:(lia)) as Sy.
  replace (S k - 1)%nat with k in Sy by lia. replace (S k + 1)%nat with (S (S k)) in Sy by lia.
  lra.
Qed.

Lemma joined_smooth k : (k <= n - 2)%nat -> forall x,
  is_derive (joined piece k) x (joined piece1 k x) /\
  is_derive (joined piece1 k) x (joined piece2 k x) /\ continuous (joined piece2 k) x.
Proof using dx_pos system.
  induction k as [| k IH]; intros Hk x.
  - cbn [joined]. split; [apply piece_derive |]. split; [apply piece1_derive |].
    apply (ex_derive_continuous (K := R_AbsRing) (V := R_NormedModule)). eexists. apply piece2_derive.
  - specialize (IH ltac:(lia)). cbn [joined].
    assert (B : K k <= K (S k)) by (rewrite K_S; lra).
    split; [| split].
    + apply glue_derive.
      * intro t. apply IH.
      * intro t. apply piece_derive.
      * rewrite joined_last, piece_right, piece_left by auto. reflexivity.
      * rewrite joined_last by auto. now apply slopes_match.
    + apply glue_derive.
      * intro t. apply IH.
      * intro t. apply piece1_derive.
      * rewrite joined_last by auto. now apply slopes_match.
      * rewrite joined_last, piece2_right, piece2_left by auto. reflexivity.
    + apply glue_continuous.
      * intro t. apply IH.
      * intro t. apply (ex_derive_continuous (K := R_AbsRing) (V := R_NormedModule)). eexists. apply piece2_derive.
      * rewrite joined_last, piece2_right, piece2_left by auto. reflexivity.
Qed.
End Pieces.

Lemma cubic_at x x0 dx (y ypp : list R) i : 0 < dx -> (Z.of_nat i < 2 ^ 62)%Z ->
  knot x0 dx i <= x < knot x0 dx (S i) -> (S i < length y)%nat -> (S i < length ypp)%nat ->
  let Y := fun i => nth i y 0 in
  let M := fun i => nth i ypp 0 in
  cubic_y ROps x x0 dx y ypp = Some (piece x0 dx Y M i x) /\
  cubic_yp ROps x x0 dx y ypp = Some (piece1 x0 dx Y M i x) /\
  cubic_ypp ROps x x0 dx y ypp = Some (piece2 x0 dx M i x).
Proof.
  intros Hd Hi Hx L1 L2 Y M. unfold cubic_y, cubic_yp, cubic_ypp.
  rewrite (index_at _ _ _ _ Hd Hi Hx). cbn [obind].
  replace (Z.of_nat i + 1)%Z with (Z.of_nat (S i)) by lia.
  rewrite (arr_at_nth y i 0), (arr_at_nth ypp i 0), (arr_at_nth y (S i) 0), (arr_at_nth ypp (S i) 0) by lia.
  cbn [obind]. rops. rewrite !IZR_of_nat. auto.
Qed.
