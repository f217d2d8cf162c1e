(** Theorems about interpolated line densities (C38), over the reals. *)
From Coq Require Import ZArith Reals Lra Lia Bool.
From Coquelicot Require Import Coquelicot.
From Coq Require Import List.
From Verif Require Import Num Particle MapsR Interp InterpSpec InterpProofs.
Import ListNotations.
Local Open Scope R_scope.

(** A profile of [n] values with room for them in both arrays. *)
Definition profile (d : line_density R) (n : nat) : Prop :=
  ld_num_values d = Z.of_nat n /\ (n <= length (ld_values d))%nat /\ (n <= length (ld_derivs d))%nat /\
  (Z.of_nat n < 2 ^ 62)%Z.
Definition value (d : line_density R) (i : nat) : R := nth i (ld_values d) 0.
Definition at_knot (d : line_density R) (i : nat) : R := knot (ld_z0 d) (ld_dz d) i.

(** The index looked up for an abscissa: the number of the interval it lies in, -1 below the
    first and the number of values from the end on. *)
Theorem C38_index : forall x x0 dx n, 0 < dx -> (Z.of_nat n < 2 ^ 62)%Z ->
  exists k, abscissa_index_ex ROps x x0 dx (Z.of_nat n) = Some k /\ (-1 <= k <= Z.of_nat n)%Z /\
    (k = (-1)%Z <-> x < x0) /\ (k = Z.of_nat n <-> knot x0 dx n <= x) /\
    (forall i, (i < n)%nat -> (k = Z.of_nat i <-> knot x0 dx i <= x < knot x0 dx (S i))).
Proof.
  intros x x0 dx n Hd Hn. unfold abscissa_index_ex. rops. rewrite IZR_of_nat. fold (knot x0 dx n).
  assert (Mono : forall i j, (i <= j)%nat -> knot x0 dx i <= knot x0 dx j).
  { intros i j H. unfold knot. apply le_INR in H. nra. }
  assert (K0 : knot x0 dx 0 = x0) by (unfold knot; cbn [INR]; lra).
  destruct (Rleb x0 x) eqn:E1; [apply Rleb_true in E1 | apply Rleb_false in E1].
  - destruct (Rltb x (knot x0 dx n)) eqn:E2; [apply Rltb_true in E2 | apply Rltb_false in E2].
    + assert (exists i, (i < n)%nat /\ knot x0 dx i <= x < knot x0 dx (S i)) as (i & Hi & B).
      { clear Hn. induction n as [|n IH]; [lra|]. destruct (Rlt_le_dec x (knot x0 dx n)) as [L|L].
        - destruct (IH L) as (i & Hi & B). exists i. split; [lia|exact B].
        - exists n. split; [lia|]. lra. }
      exists (Z.of_nat i). split; [apply index_at; auto; lia|]. split; [lia|]. split; [split; [lia|lra]|].
      split; [split; [lia|lra]|]. intros j Hj. split.
      * intros E. apply Nat2Z.inj in E. subst j. exact B.
      * intros B'. f_equal. destruct (Nat.lt_trichotomy i j) as [H|[H|H]]; auto.
        -- pose proof (Mono (S i) j H). lra.
        -- pose proof (Mono (S j) i H). lra.
    + exists (Z.of_nat n). split; [reflexivity|]. split; [lia|]. split; [split; [lia|lra]|]. split; [tauto|].
      intros j Hj. split; [lia|]. intros B. pose proof (Mono (S j) n Hj). lra.
  - pose proof (Mono 0%nat n (Nat.le_0_l n)) as M. exists (-1)%Z. split; [reflexivity|]. split; [lia|]. split; [tauto|].
    split; [split; [lia|lra]|]. intros j Hj. split; [lia|]. pose proof (Mono 0%nat j (Nat.le_0_l j)). lra.
Qed.
Print Assumptions C38_index.

Example C38_index_case : abscissa_index_ex ROps (3 / 2) 0 1 (Z.of_nat 3) = Some 1%Z.
Proof.
  destruct (C38_index (3 / 2) 0 1 3) as (k & E & _ & _ & _ & H); [lra|reflexivity|]. rewrite E. f_equal.
  apply (H 1%nat); [lia|]. unfold knot. cbn [INR]. lra.
Qed.

(** Extended linear lookup: outside the table the value is on the prolonged first respectively
    last straight line. *)
Theorem C38_extrapolate (x x0 dx : R) (y yp : list R) (n : nat) : 0 < dx -> (0 < n)%nat ->
  (n <= length y)%nat -> (n <= length yp)%nat -> Rabs ((x - x0) / dx) < IZR (2 ^ 62) ->
  exists k, (k < n)%nat /\
    linear_y_ex ROps x x0 dx y yp (Z.of_nat n) = Some (nth k y 0 + (x - knot x0 dx k) * nth k yp 0) /\
    (x < knot x0 dx 1 -> k = 0%nat) /\ (knot x0 dx (n - 1) <= x -> k = (n - 1)%nat) /\
    (forall i, (i < n)%nat -> knot x0 dx i <= x < knot x0 dx (S i) -> k = i).
Proof.
  intros Hd Hn Ly Lyp Hr.
  assert (K0 : knot x0 dx 0 = x0) by (unfold knot; cbn [INR]; lra).
  assert (Mono : forall i j, (i <= j)%nat -> knot x0 dx i <= knot x0 dx j).
  { intros i j H. unfold knot. apply le_INR in H. nra. }
  destruct (Rlt_le_dec x x0) as [Lt|Ge].
  - exists 0%nat. split; [exact Hn|].
    assert (E : exists z, (z <= 0)%Z /\ abscissa_index ROps x x0 dx = Some z).
    { unfold abscissa_index. rops. assert (U : (x - x0) / dx < 0).
      { apply Rmult_lt_reg_r with dx; [lra|]. unfold Rdiv. rewrite Rmult_assoc, Rinv_l by lra. lra. }
      set (u := (x - x0) / dx) in *. clearbody u. unfold RtruncZ.
      destruct (Rlt_dec (Rabs u) (IZR (2 ^ 63))) as [L|L].
      - destruct (Rle_dec 0 u); [lra|]. eexists. split; [|reflexivity].
        destruct (base_Int_part (- u)) as [B1 B2]. assert (-1 < IZR (Int_part (- u))) as B by lra.
        apply lt_IZR in B. lia.
      - exfalso. apply L. apply Rlt_trans with (1 := Hr). apply IZR_lt. reflexivity. }
    destruct E as (z & Hz & E).
    pose proof (arr_at_nth y 0 0 ltac:(lia)) as A1. pose proof (arr_at_nth yp 0 0 ltac:(lia)) as A2. cbn [Z.of_nat] in A1, A2.
    split.
    + unfold linear_y_ex. rewrite E. cbn [obind]. cbv zeta. rewrite (proj2 (Z.leb_gt (Z.of_nat n) z)) by lia. cbn [andb].
      rewrite (proj2 (Z.ltb_lt 0 (Z.of_nat n))) by lia. rewrite (proj2 (Z.ltb_lt z (Z.of_nat n))) by lia.
      destruct (Z.leb_spec 0 z) as [H|H]; cbn [andb].
      * assert (z = 0%Z) as -> by lia. rewrite A1, A2. cbn [obind]. rops. apply f_equal. unfold knot. cbn [INR]. ring.
      * rewrite (proj2 (Z.ltb_lt z 0)) by lia. cbn [andb]. rewrite A1, A2. cbn [obind]. rops. apply f_equal. unfold knot. cbn [INR]. ring.
    + split; [auto|]. split.
      * intros H. pose proof (Mono 0%nat (n - 1)%nat ltac:(lia)). lra.
      * intros i Hi [H _]. pose proof (Mono 0%nat i ltac:(lia)). lra.
  - assert (exists i, knot x0 dx i <= x < knot x0 dx (S i) /\ (Z.of_nat i < 2 ^ 62)%Z) as (i & B & Hi).
    { set (u := (x - x0) / dx) in *. assert (U : 0 <= u).
      { unfold u. apply Rmult_le_reg_r with dx; [lra|]. unfold Rdiv. rewrite Rmult_assoc, Rinv_l by lra. lra. }
      assert (Ex : x = x0 + dx * u) by (unfold u; field; lra). clearbody u.
      destruct (base_Int_part u) as [B1 B2]. assert (-1 < IZR (Int_part u)) as P by lra. apply lt_IZR in P.
      exists (Z.to_nat (Int_part u)). unfold knot. rewrite S_INR, INR_IZR_INZ, Z2Nat.id by lia.
      split; [subst x; split; nra|]. apply lt_IZR. rewrite Rabs_pos_eq in Hr by lra. lra. }
    pose proof (index_at x x0 dx i Hd Hi B) as E. destruct (Nat.lt_ge_cases i n) as [In|Out].
    + exists i. split; [exact In|]. split.
      * unfold linear_y_ex. rewrite E. cbn [obind]. cbv zeta. rewrite (proj2 (Z.leb_gt (Z.of_nat n) (Z.of_nat i))) by lia. cbn [andb].
        rewrite (proj2 (Z.leb_le 0 (Z.of_nat i))) by lia. rewrite (proj2 (Z.ltb_lt (Z.of_nat i) (Z.of_nat n))) by lia. cbn [andb].
        rewrite (arr_at_nth y i 0), (arr_at_nth yp i 0) by lia. cbn [obind]. rops. rewrite IZR_of_nat. reflexivity.
      * split; [|split].
        -- intros H. destruct i as [|i]; [reflexivity|]. pose proof (Mono 1%nat (S i) ltac:(lia)). lra.
        -- intros H. destruct (Nat.eq_dec i (n - 1)) as [|Ne]; [auto|]. pose proof (Mono (S i) (n - 1)%nat ltac:(lia)). lra.
        -- intros j Hj Bj. destruct (Nat.lt_trichotomy i j) as [H|[H|H]]; auto.
           ++ pose proof (Mono (S i) j H). lra.
           ++ pose proof (Mono (S j) i H). lra.
    + exists (n - 1)%nat. split; [lia|]. split.
      * unfold linear_y_ex. rewrite E. cbn [obind]. cbv zeta. rewrite (proj2 (Z.leb_le (Z.of_nat n) (Z.of_nat i))) by lia.
        rewrite (proj2 (Z.ltb_lt 0 (Z.of_nat n))) by lia. cbn [andb].
        replace (Z.of_nat n - 1)%Z with (Z.of_nat (n - 1)) by lia.
        rewrite (proj2 (Z.leb_le 0 (Z.of_nat (n - 1)))) by lia. rewrite (proj2 (Z.ltb_lt (Z.of_nat (n - 1)) (Z.of_nat n))) by lia. cbn [andb].
        rewrite (arr_at_nth y (n - 1) 0), (arr_at_nth yp (n - 1) 0) by lia. cbn [obind]. rops. rewrite IZR_of_nat. reflexivity.
      * split; [|split; [auto|]].
        -- intros H. pose proof (Mono 1%nat i ltac:(lia)). lra.
        -- intros j Hj Bj. pose proof (Mono (S j) i ltac:(lia)). lra.
Qed.
Print Assumptions C38_extrapolate.

Example C38_extrapolate_case : linear_y_ex ROps 7 0 1 [0; 1; 4] [1; 3; 5] 3 = Some 29.
Proof.
  destruct (C38_extrapolate 7 0 1 [0; 1; 4] [1; 3; 5] 3) as (k & _ & E & _ & H & _); try (cbn [length]; lia); [lra| |].
  - replace ((7 - 0) / 1) with 7 by field. rewrite Rabs_pos_eq by lra. change 7 with (IZR 7). apply IZR_lt. reflexivity.
  - etransitivity; [exact E|]. rewrite H by (unfold knot; cbn [INR Nat.sub]; lra). cbn [nth Nat.sub]. f_equal. unfold knot. cbn [INR]. ring.
Qed.

Lemma in_range d n x : profile d n -> 0 < ld_dz d -> ld_z0 d <= x -> x <= at_knot d n ->
  nleb ROps x (ld_z_max ROps d) && nleb ROps (ld_z0 d) x = true.
Proof.
  intros [E _] Hd H1 H2. unfold ld_z_max. rewrite E. rops. rewrite IZR_of_nat.
  apply andb_true_intro. split; apply Rleb_true; auto.
Qed.

Lemma knot_range d n i : (i <= n)%nat -> 0 < ld_dz d -> ld_z0 d <= at_knot d i <= at_knot d n.
Proof.
  intros Hi Hd. unfold at_knot, knot. pose proof (pos_INR i). apply le_INR in Hi. split; nra.
Qed.

Lemma prepared_linear d d' n : profile d n -> ld_method d = 0%Z -> ld_prepare ROps d = Some d' ->
  0 < ld_dz d /\ (1 < n)%nat /\ profile d' n /\ ld_method d' = 0%Z /\ ld_values d' = ld_values d /\
  ld_z0 d' = ld_z0 d /\ ld_dz d' = ld_dz d /\
  (forall i, (S i < n)%nat -> nth i (ld_derivs d') 0 = (value d (S i) - value d i) / ld_dz d) /\
  nth (n - 1) (ld_derivs d') 0 = nth (n - 1) (ld_derivs d) 0.
Proof.
  intros [E [Lv [Ld Ln]]] Hm H. unfold ld_prepare in H.
  destruct (0 <? ld_num_values d)%Z; [| discriminate].
  unfold prepare in H. rewrite Hm in H. cbn [Z.eqb INTERPOL_LINEAR] in H. rewrite E in H.
  destruct (linear_prepare ROps (ld_derivs d) (ld_values d) (ld_dz d) (Z.of_nat n)) as [yp |] eqn:Ep;
    [| discriminate].
  match type of H with Some ?q = _ => assert (E' : d' = q) by congruence end. clear H. subst d'.
  destruct (linear_prepare_nth _ _ _ _ _ Ep Lv Ld) as [P1 [P2 [P3 [P4 P5]]]].
  cbn [ld_method ld_values ld_derivs ld_z0 ld_dz ld_num_values] in *.
  split; [auto |]. split; [auto |].
  split. { unfold profile. cbn [ld_method ld_values ld_derivs ld_z0 ld_dz ld_num_values]. rewrite P3. auto. }
  do 4 (split; [now auto |]). split; [exact P4 |]. apply P5. lia.
Qed.

(** Linear: between two neighbouring abscissas the value is on the straight line
    through the two tabulated points, and the derivative is its slope. *)
Theorem C38_linear (d d' : line_density R) (n i : nat) (x : R) :
  profile d n -> ld_method d = 0%Z -> ld_prepare ROps d = Some d' ->
  (S i < n)%nat -> at_knot d i <= x <= at_knot d (S i) ->
  ld_interpolate ROps d' x
    = Some (chord (at_knot d i) (value d i) (at_knot d (S i)) (value d (S i)) x) /\
  (x < at_knot d (S i) ->
   ld_derivative1 ROps d' x = Some ((value d (S i) - value d i) / (at_knot d (S i) - at_knot d i)) /\
   ld_derivative2 ROps d' x = Some 0).
Proof.
  intros Hp Hm H Hi Hx.
  destruct (prepared_linear d d' n Hp Hm H) as [Hd [_ [Hp' [Hm' [Ev [Ez [Edz [Hs _]]]]]]]].
  assert (Ed : at_knot d (S i) - at_knot d i = ld_dz d) by (unfold at_knot, knot; rewrite S_INR; ring).
  assert (R : ld_z0 d <= x /\ x <= at_knot d n).
  { pose proof (knot_range d n i ltac:(lia) Hd). pose proof (knot_range d n (S i) ltac:(lia) Hd). lra. }
  assert (IR : nleb ROps x (ld_z_max ROps d') && nleb ROps (ld_z0 d') x = true).
  { apply in_range with n; auto; try (rewrite Edz; auto); try (rewrite Ez; apply R).
    unfold at_knot. rewrite Ez, Edz. apply R. }
  unfold ld_interpolate, ld_derivative1, ld_derivative2. rewrite IR.
  unfold interpol_y, interpol_yp, interpol_ypp. rewrite Hm'. cbn [Z.eqb INTERPOL_LINEAR].
  rewrite Ez, Edz, Ev.
  destruct Hp' as [En [Lv [Ld Ln]]]. rewrite Ev in Lv.
  assert (Lt : forall j, (j < n)%nat -> knot (ld_z0 d) (ld_dz d) j <= x < knot (ld_z0 d) (ld_dz d) (S j) ->
    linear_y ROps x (ld_z0 d) (ld_dz d) (ld_values d) (ld_derivs d')
      = Some (nth j (ld_values d) 0 + (x - knot (ld_z0 d) (ld_dz d) j) * nth j (ld_derivs d') 0) /\
    linear_yp ROps x (ld_z0 d) (ld_dz d) (ld_derivs d') = Some (nth j (ld_derivs d') 0)).
  { intros j Hj Hxj. apply linear_y_at; auto; lia. }
  assert (Hl : x < at_knot d (S i) -> linear_y ROps x (ld_z0 d) (ld_dz d) (ld_values d) (ld_derivs d')
      = Some (chord (at_knot d i) (value d i) (at_knot d (S i)) (value d (S i)) x) /\
      linear_yp ROps x (ld_z0 d) (ld_dz d) (ld_derivs d') = Some ((value d (S i) - value d i) / ld_dz d)).
  { intro Hx2. destruct (Lt i) as [L1 L2]; [lia | unfold at_knot in *; lra |].
    rewrite L1, L2, Hs by lia. unfold chord. rewrite Ed. auto. }
  split.
  - destruct (Rlt_dec x (at_knot d (S i))) as [Hx2 | Hx2]; [now apply Hl |].
    assert (x = at_knot d (S i)) as -> by lra.
    destruct (Lt (S i)) as [L1 _].
    { lia. }
    { unfold at_knot, knot. rewrite !S_INR. lra. }
    rewrite L1. f_equal. unfold chord, value. unfold at_knot in *. clear L1.
    set (k1 := knot (ld_z0 d) (ld_dz d) (S i)) in *. set (k0 := knot (ld_z0 d) (ld_dz d) i) in *.
    rewrite Ed. field. lra.
  - intro Hx2. rewrite Ed. destruct (Hl Hx2) as [_ L2]. rewrite L2. auto.
Qed.
Print Assumptions C38_linear.

(** Linear: every abscissa of the table, the last one included, returns its value. *)
Theorem C38_linear_table (d d' : line_density R) (n i : nat) :
  profile d n -> ld_method d = 0%Z -> ld_prepare ROps d = Some d' ->
  (i < n)%nat -> ld_interpolate ROps d' (at_knot d i) = Some (value d i).
Proof.
  intros Hp Hm H Hi.
  destruct (prepared_linear d d' n Hp Hm H) as [Hd [_ [Hp' [Hm' [Ev [Ez [Edz _]]]]]]].
  pose proof (knot_range d n i ltac:(lia) Hd) as R.
  assert (IR : nleb ROps (at_knot d i) (ld_z_max ROps d') && nleb ROps (ld_z0 d') (at_knot d i) = true).
  { apply in_range with n; auto; try (rewrite Edz; auto); try (rewrite Ez; apply R).
    unfold at_knot at 2. rewrite Ez, Edz. apply R. }
  unfold ld_interpolate. rewrite IR. unfold interpol_y. rewrite Hm'. cbn [Z.eqb INTERPOL_LINEAR].
  rewrite Ez, Edz, Ev. destruct Hp' as [En [Lv [Ld Ln]]]. rewrite Ev in Lv.
  destruct (linear_y_at (at_knot d i) (ld_z0 d) (ld_dz d) (ld_values d) (ld_derivs d') i) as [L _]; auto; try lia.
  { unfold at_knot, knot. rewrite S_INR. lra. }
  rewrite L. unfold value, at_knot. f_equal. ring.
Qed.
Print Assumptions C38_linear_table.

(** Cubic: for every supported pair of end conditions there is one function, twice
    continuously differentiable on the whole line, which takes the tabulated
    values at all abscissas and whose value, first and second derivative are what
    the interpolation routines return from the first abscissa up to (but not
    including) the last one; its second derivative obeys the end conditions. *)
Theorem C38_cubic (ypp0 : nat -> R) (y : list R) (x0 dx : R) (n : nat) (bt et : boundary) (bp ep : R)
    (M : nat -> R) :
  cubic_prepare ROps ypp0 (fun i => nth i y 0) dx (Z.of_nat n) bt et bp ep = Some M ->
  supported bt bp -> supported et ep -> (n <= length y)%nat -> (Z.of_nat n < 2 ^ 62)%Z ->
  exists f f1 f2 : R -> R,
    (forall x, is_derive f x (f1 x) /\ is_derive f1 x (f2 x) /\ continuous f2 x) /\
    (forall i, (i < n)%nat -> f (knot x0 dx i) = nth i y 0) /\
    end_condition bt bp (f2 (knot x0 dx 0)) (f2 (knot x0 dx 1)) /\
    end_condition et ep (f2 (knot x0 dx (n - 1))) (f2 (knot x0 dx (n - 2))) /\
    forall x ypp, (n <= length ypp)%nat -> (forall i, (i < n)%nat -> nth i ypp 0 = M i) ->
      x0 <= x < knot x0 dx (n - 1) ->
      cubic_y ROps x x0 dx y ypp = Some (f x) /\
      cubic_yp ROps x x0 dx y ypp = Some (f1 x) /\
      cubic_ypp ROps x x0 dx y ypp = Some (f2 x).
Proof.
  intros H Sb Se Ly Ln.
  destruct (cubic_prepare_system _ _ _ _ _ _ _ _ _ H Sb Se) as [Hd [Hn [Eb [Ee Sy]]]].
  set (Y := fun i => nth i y 0) in *.
  exists (joined x0 dx (piece x0 dx Y M) (n - 2)), (joined x0 dx (piece1 x0 dx Y M) (n - 2)),
         (joined x0 dx (piece2 x0 dx M) (n - 2)).
  assert (At : forall p i, (i <= n - 2)%nat -> joined x0 dx p (n - 2) (knot x0 dx i) = p i (knot x0 dx i)).
  { intros p i Hi. apply (joined_at x0 dx Hd p (n - 2) i); [lia |].
    unfold knot. rewrite S_INR. lra. }
  assert (Last : forall p, joined x0 dx p (n - 2) (knot x0 dx (n - 1)) = p (n - 2)%nat (knot x0 dx (n - 1))).
  { intro p. apply joined_last. replace (n - 1)%nat with (S (n - 2)) by lia. unfold knot. rewrite S_INR. nra. }
  assert (K2 : forall i, (i <= n - 1)%nat -> joined x0 dx (piece2 x0 dx M) (n - 2) (knot x0 dx i) = M i).
  { intros i Hi. destruct (Nat.eq_dec i (n - 1)) as [-> | N].
    - rewrite Last. replace (n - 1)%nat with (S (n - 2)) by lia. now apply piece2_right.
    - rewrite At by lia. now apply piece2_left. }
  split. { intro x. now apply (joined_smooth x0 dx Y M Hd n Sy (n - 2)). }
  split.
  { intros i Hi. destruct (Nat.eq_dec i (n - 1)) as [-> | N].
    - rewrite Last. replace (n - 1)%nat with (S (n - 2)) by lia. rewrite piece_right by auto. reflexivity.
    - rewrite At by lia. rewrite piece_left by auto. reflexivity. }
  split. { rewrite !K2 by lia. exact Eb. }
  split. { rewrite !K2 by lia. exact Ee. }
  intros x ypp Lp Hp Hx.
  (* the interval of x *)
  assert (I : forall m, x0 <= x < knot x0 dx m -> exists i, (i < m)%nat /\ knot x0 dx i <= x < knot x0 dx (S i)).
  { induction m as [| m IH]; intros [I1 I2].
    - unfold knot in I2. cbn in I2. lra.
    - destruct (Rlt_dec x (knot x0 dx m)) as [L | L].
      + destruct IH as [i [Hi Hxi]]; [lra |]. exists i. split; [lia | auto].
      + exists m. split; [lia | lra]. }
  destruct (I _ Hx) as [i [Hi Hxi]].
  rewrite !(joined_at x0 dx Hd _ (n - 2) i) by (auto; lia).
  destruct (cubic_at x x0 dx y ypp i Hd ltac:(lia) Hxi ltac:(lia) ltac:(lia)) as [C1 [C2 C3]].
  rewrite C1, C2, C3. unfold piece, piece1, piece2. cbv zeta. rewrite !Hp by lia. auto.
Qed.
Print Assumptions C38_cubic.

Lemma prepared_cubic d d' n : profile d n -> ld_method d = 1%Z -> ld_prepare ROps d = Some d' ->
  exists M, cubic_prepare ROps (fun i => nth i (ld_derivs d) 0) (fun i => nth i (ld_values d) 0) (ld_dz d)
              (Z.of_nat n) BNatural BNatural 0 0 = Some M /\
  d' = mkLineDensity 1%Z (ld_values d) (map M (seq 0 (length (ld_derivs d)))) (ld_z0 d) (ld_dz d) (Z.of_nat n).
Proof.
  intros [E [Lv [Ld Ln]]] Hm H. unfold ld_prepare in H.
  destruct (0 <? ld_num_values d)%Z; [| discriminate].
  unfold prepare in H. rewrite Hm in H.
  change (1 =? INTERPOL_LINEAR)%Z with false in H. change (1 =? INTERPOL_CUBIC)%Z with true in H.
  cbv iota in H. rewrite E in H. rops.
  destruct (cubic_prepare ROps (fun i => nth i (ld_derivs d) 0) (fun i => nth i (ld_values d) 0) (ld_dz d)
              (Z.of_nat n) BNatural BNatural 0 0) as [M |]; [| discriminate].
  exists M. split; [reflexivity | congruence].
Qed.

(** The same for a line density profile, which always uses vanishing second
    derivatives at both ends. *)
Theorem C38_cubic_profile (d d' : line_density R) (n : nat) :
  profile d n -> ld_method d = 1%Z -> ld_prepare ROps d = Some d' ->
  exists f f1 f2 : R -> R,
    (forall x, is_derive f x (f1 x) /\ is_derive f1 x (f2 x) /\ continuous f2 x) /\
    (forall i, (i < n)%nat -> f (at_knot d i) = value d i) /\
    f2 (at_knot d 0) = 0 /\ f2 (at_knot d (n - 1)) = 0 /\
    forall x, ld_z0 d <= x < at_knot d (n - 1) ->
      ld_interpolate ROps d' x = Some (f x) /\ ld_derivative1 ROps d' x = Some (f1 x) /\
      ld_derivative2 ROps d' x = Some (f2 x).
Proof.
  intros Hp Hm H. destruct (prepared_cubic d d' n Hp Hm H) as [M [Hc E]].
  destruct (cubic_prepare_system _ _ _ _ _ _ _ _ _ Hc Logic.I Logic.I) as [Hd [Hn _]].
  pose proof Hp as [En [Lv [Ld Ln]]].
  destruct (C38_cubic _ _ (ld_z0 d) _ _ _ _ _ _ _ Hc Logic.I Logic.I Lv Ln) as [f [f1 [f2 [C1 [C2 [C3 [C4 C5]]]]]]].
  exists f, f1, f2. split; [exact C1 |]. split; [exact C2 |]. split; [exact C3 |]. split; [exact C4 |].
  intros x Hx. subst d'.
  assert (IR : nleb ROps x (ld_z_max ROps (mkLineDensity 1%Z (ld_values d) (map M (seq 0 (length (ld_derivs d)))) (ld_z0 d) (ld_dz d) (Z.of_nat n)))
     && nleb ROps (ld_z0 d) x = true).
  { pose proof (knot_range d n (n - 1) ltac:(lia) Hd).
    unfold ld_z_max. cbn [ld_z0 ld_dz ld_num_values]. rops. rewrite IZR_of_nat.
    apply andb_true_intro. split; apply Rleb_true; [| lra]. unfold at_knot at 3 in H0. unfold knot in H0. lra. }
  unfold ld_interpolate, ld_derivative1, ld_derivative2, interpol_y, interpol_yp, interpol_ypp.
  cbn [ld_z0 ld_dz ld_values ld_derivs ld_method]. rewrite IR.
  change (1 =? INTERPOL_LINEAR)%Z with false. change (1 =? INTERPOL_CUBIC)%Z with true. cbv iota.
  apply C5; auto.
  - now rewrite map_length, seq_length.
  - intros i Hi. rewrite nth_indep with (d' := M 0%nat) by (rewrite map_length, seq_length; lia).
    rewrite map_nth, seq_nth by lia. reflexivity.
Qed.
Print Assumptions C38_cubic_profile.

(** Outside the table the density is zero. *)
Theorem C38_outside (d : line_density R) (n : nat) (x : R) : profile d n ->
  x < at_knot d 0 \/ at_knot d n < x ->
  ld_interpolate ROps d x = Some 0 /\ ld_derivative1 ROps d x = Some 0 /\ ld_derivative2 ROps d x = Some 0.
Proof.
  intros [E _] Hx.
  assert (IR : nleb ROps x (ld_z_max ROps d) && nleb ROps (ld_z0 d) x = false).
  { unfold ld_z_max. rewrite E. rops. rewrite IZR_of_nat. unfold at_knot, knot in Hx. cbn [INR] in Hx.
    apply andb_false_iff. rewrite !Rleb_false. lra. }
  unfold ld_interpolate, ld_derivative1, ld_derivative2. rewrite IR. auto.
Qed.
Print Assumptions C38_outside.

(** ** Examples: a table of five values for both methods. *)
Definition sample (m : Z) (rest : list R) : line_density R :=
  mkLineDensity m [0; 1; 4; 9; 16] ([0; 0; 0; 0] ++ rest) 0 1 5%Z.

Example C38_rules_satisfiable m : m = 0%Z \/ m = 1%Z ->
  profile (sample m [7]) 5 /\ ld_method (sample m [7]) = m /\ ld_prepare ROps (sample m [7]) <> None.
Proof.
  intro H. split; [| split; [reflexivity |]].
  - unfold profile. cbn. repeat split; try lia.
  - assert (L : nltb ROps (nofZ ROps 0) 1 = true) by (apply Rltb_true; rops; lra).
    unfold ld_prepare, prepare, linear_prepare, cubic_prepare. cbn [sample ld_num_values ld_method ld_dz].
    rewrite L. destruct H as [-> | ->]; cbn; discriminate.
Qed.

(** ** What the code gets wrong. *)

(** The range of a profile is declared one step too long.  Between the last abscissa
    and that end the linear value depends on a slope which the preparation never
    writes: any number [v] can come out. *)
Theorem C38_last_step_refuted (v : R) : exists d d' x,
  profile d 5 /\ ld_prepare ROps d = Some d' /\ ld_method d = 0%Z /\
  (forall i, (i < 5)%nat -> value d i = INR i ^ 2) /\
  at_knot d 4 < x < at_knot d 5 /\ ld_interpolate ROps d' x = Some v.
Proof.
  set (d := sample 0 [2 * (v - 16)]).
  assert (Hp : profile d 5) by (unfold profile; cbn; repeat split; lia).
  assert (D : exists d', ld_prepare ROps d = Some d').
  { assert (L : nltb ROps (nofZ ROps 0) 1 = true) by (apply Rltb_true; rops; lra).
    unfold ld_prepare, prepare, linear_prepare. cbn [d sample ld_num_values ld_method ld_dz].
    rewrite L. cbn. eauto. }
  destruct D as [d' E]. exists d, d', (9 / 2).
  split; [exact Hp |]. split; [exact E |]. split; [reflexivity |].
  split. { intros i Hi. destruct i as [|[|[|[|[|i]]]]]; try lia; cbn; ring. }
  split. { unfold at_knot, knot. cbn. lra. }
  destruct (prepared_linear d d' 5 Hp eq_refl E) as [Hd [_ [Hp' [Hm' [Ev [Ez [Edz [_ Hl]]]]]]]].
  assert (IR : nleb ROps (9 / 2) (ld_z_max ROps d') && nleb ROps (ld_z0 d') (9 / 2) = true).
  { apply in_range with 5%nat; auto.
    - rewrite Edz. exact Hd.
    - rewrite Ez. cbn. lra.
    - unfold at_knot, knot. rewrite Ez, Edz. cbn. lra. }
  unfold ld_interpolate. rewrite IR. unfold interpol_y. rewrite Hm'. cbn [Z.eqb INTERPOL_LINEAR].
  rewrite Ez, Edz, Ev. destruct Hp' as [_ [_ [Ld' _]]].
  destruct (linear_y_at (9 / 2) (ld_z0 d) (ld_dz d) (ld_values d) (ld_derivs d') 4) as [L _].
  { exact Hd. } { reflexivity. } { unfold knot. cbn. lra. } { cbn. lia. } { lia. }
  rewrite L. cbn [Nat.sub] in Hl. rewrite Hl. unfold knot. cbn. f_equal. lra.
Qed.
Print Assumptions C38_last_step_refuted.

(** Cubic: at the last abscissa of a full table the routine reads one value past the
    end; linear: the same at the declared end of the range. *)
Theorem C38_end_refuted :
  (exists d d', profile d 5 /\ ld_method d = 1%Z /\ ld_prepare ROps d = Some d' /\
     ld_interpolate ROps d' (at_knot d 4) = None) /\
  (exists d d', profile d 5 /\ ld_method d = 0%Z /\ ld_prepare ROps d = Some d' /\
     ld_interpolate ROps d' (ld_z_max ROps d) = None).
Proof.
  assert (Hp : forall m, profile (sample m [7]) 5) by (intro; unfold profile; cbn; repeat split; lia).
  assert (Ex : forall m, m = 0%Z \/ m = 1%Z -> exists d', ld_prepare ROps (sample m [7]) = Some d').
  { intros m Hm. destruct (C38_rules_satisfiable m Hm) as [_ [_ N]].
    destruct (ld_prepare ROps (sample m [7])); [eauto | contradiction]. }
  split.
  - destruct (Ex 1%Z (or_intror eq_refl)) as [d' E]. exists (sample 1 [7]), d'.
    split; [apply Hp |]. split; [reflexivity |]. split; [exact E |].
    destruct (prepared_cubic _ d' 5 (Hp 1%Z) eq_refl E) as [M [_ ->]].
    unfold ld_interpolate. cbn [sample ld_z0 ld_dz ld_values ld_derivs ld_method ld_num_values].
    unfold at_knot. cbn [sample ld_z0 ld_dz].
    rewrite (proj2 (andb_true_iff _ _)).
    2:{ unfold ld_z_max. cbn [ld_z0 ld_dz ld_num_values]. rops. change (Z.of_nat 5) with 5%Z. unfold knot. cbn [INR].
        split; apply Rleb_true; lra. }
    unfold interpol_y. change (1 =? INTERPOL_LINEAR)%Z with false. change (1 =? INTERPOL_CUBIC)%Z with true.
    cbv iota. unfold cubic_y. rewrite (index_at _ 0 1 4).
    + reflexivity.
    + lra.
    + reflexivity.
    + unfold knot. cbn [INR]. lra.
  - destruct (Ex 0%Z (or_introl eq_refl)) as [d' E]. exists (sample 0 [7]), d'.
    split; [apply Hp |]. split; [reflexivity |]. split; [exact E |].
    destruct (prepared_linear _ d' 5 (Hp 0%Z) eq_refl E) as [Hd [_ [Hp' [Hm' [Ev [Ez [Edz _]]]]]]].
    assert (Zm : ld_z_max ROps (sample 0 [7]) = 5) by (unfold ld_z_max; cbn; lra).
    rewrite Zm.
    assert (IR : nleb ROps 5 (ld_z_max ROps d') && nleb ROps (ld_z0 d') 5 = true).
    { apply in_range with 5%nat; auto.
      - rewrite Edz. exact Hd.
      - rewrite Ez. cbn. lra.
      - unfold at_knot, knot. rewrite Ez, Edz. cbn. lra. }
    unfold ld_interpolate. rewrite IR. unfold interpol_y. rewrite Hm'. cbn [Z.eqb INTERPOL_LINEAR].
    rewrite Ez, Edz, Ev. unfold linear_y. cbn [sample ld_z0 ld_dz ld_values]. rewrite (index_at _ 0 1 5).
    + reflexivity.
    + lra.
    + reflexivity.
    + unfold knot. cbn [INR]. lra.
Qed.
Print Assumptions C38_end_refuted.

(** Not-a-knot at the end: the last second derivative is whatever was in the array. *)
Theorem C38_not_a_knot_refuted (v : R) : exists M,
  cubic_prepare ROps (fun _ => v) (fun i => INR i ^ 3) 1 5 BNatural BNotAKnot 0 0 = Some M /\ M 4%nat = v.
Proof.
  unfold cubic_prepare.
  assert (L : nltb ROps (nofZ ROps 0) 1 = true) by (apply Rltb_true; rops; lra).
  rewrite L. change (3 <? 5)%Z with true. cbn [andb].
  eexists. split; [reflexivity |]. reflexivity.
Qed.
Print Assumptions C38_not_a_knot_refuted.

(** The "extended" linear derivative is 0 inside the table, whatever the slopes. *)
Theorem C38_slope_refuted : exists yp x,
  yp = [1; 1; 1; 1] /\ knot 0 1 1 < x < knot 0 1 2 /\
  linear_yp ROps x 0 1 yp = Some 1 /\ linear_yp_ex ROps x 0 1 yp 5 = Some 0.
Proof.
  exists [1; 1; 1; 1], (3 / 2). split; [reflexivity |].
  assert (K : knot 0 1 1 < 3 / 2 < knot 0 1 2) by (unfold knot; cbn; lra).
  split; [exact K |].
  assert (Ix : abscissa_index ROps (3 / 2) 0 1 = Some (Z.of_nat 1)).
  { apply index_at; [lra | reflexivity | lra]. }
  unfold linear_yp, linear_yp_ex. rewrite Ix. cbn. auto.
Qed.
Print Assumptions C38_slope_refuted.
