(* Theorems for C29: aperture checks, over the reals and in IEEE double precision. *)
From Coq Require Import ZArith Reals Lra Lia Bool List.
From Flocq Require Import Core IEEE754.BinarySingleNaN.
From Verif Require Import Num Particle Elements MapsR Binary64 Aperture ApertureSpec ApertureProofs.
Import ListNotations.
Local Open Scope R_scope.

(* ---- any arithmetic ---- *)
Definition is_aperture {T} (be : element T) : bool :=
  match be with BLimitRect _ _ _ _ | BLimitEllipse _ _ _ | BLimitRectEllipse _ _ _ _ _ => true | _ => false end.

(* Whatever the number type, an aperture decides by the position alone, keeps lost
   particles lost and changes nothing but the state. *)
Theorem C29_frame : forall T (N : NumOps T) c be, is_aperture be = true ->
  exists accept : T -> T -> bool, performs N c be (fun x y => accept x y = true).
Proof.
  intros T N c be H. destruct be; try discriminate; eexists.
  - apply (rect_performs T N c (mkRect min_x max_x min_y max_y)). intros x y. cbn. 
    match goal with |- ?b = true <-> _ => instantiate (1 := fun x y => (nleb N min_x x && nleb N x max_x && nleb N min_y y && nleb N y max_y)%bool) end. reflexivity.
  - apply (ellipse_performs T N c (mkEllipse a_squ b_squ a_b_squ)). intros x y. cbn.
    instantiate (1 := fun x y => nleb N (nadd N (nmul N (nmul N x x) b_squ) (nmul N (nmul N y y) a_squ)) a_b_squ). reflexivity.
  - apply (re_performs T N c (mkRE max_x max_y a_squ b_squ a_squ_b_squ)). intros x y. cbn.
    instantiate (1 := fun x y => (nleb N x max_x && nleb N (nopp N max_x) x && nleb N y max_y && nleb N (nopp N max_y) y &&
       nleb N (nadd N (nmul N (nmul N x x) b_squ) (nmul N (nmul N y y) a_squ)) a_squ_b_squ)%bool). reflexivity.
Qed.
Print Assumptions C29_frame.

Example C29_frame_case : @is_aperture R (BLimitEllipse 1 4 4) = true.
Proof. reflexivity. Qed.

(* ---- real numbers ---- *)
Theorem C29_rect : forall c r,
  performs ROps c (rect_elem r) (closed_box (r_min_x r) (r_max_x r) (r_min_y r) (r_max_y r)).
Proof.
  intros c r. apply rect_performs. intros x y. rewrite !andb_true_iff, !Rle_b. unfold closed_box. tauto.
Qed.
Print Assumptions C29_rect.

Theorem C29_rect_symmetric : forall c lx ly r,
  performs ROps c (rect_elem (rect_set_y_limit R ROps ly (rect_set_x_limit R ROps lx r)))
    (fun x y => Rabs x <= lx /\ Rabs y <= ly).
Proof.
  intros c lx ly r. apply rect_performs. intros x y. rewrite !andb_true_iff, !Rle_b.
  cbn. split.
  - intros H. split; apply Rabs_le; lra.
  - intros [H1 H2]. apply Rabs_le_inv in H1. apply Rabs_le_inv in H2. lra.
Qed.
Print Assumptions C29_rect_symmetric.

Theorem C29_ellipse : forall c a b e0 e st, a <> 0 -> b <> 0 ->
  ellipse_set_half_axes R ROps a b e0 = (e, st) ->
  st = 0%Z /\ performs ROps c (ellipse_elem e) (closed_ellipse a b).
Proof.
  intros c a b e0 e st Ha Hb H. unfold ellipse_set_half_axes, ellipse_set_half_axes_squ in H.
  assert (E : (nleb ROps (nofZ ROps 0) (nmul ROps a a) && nleb ROps (nofZ ROps 0) (nmul ROps b b))%bool = true).
  { rewrite andb_true_iff, !Rle_b. cbn. nra. }
  rewrite E in H. assert (He : e = fst (e, st)) by reflexivity. assert (Hs : st = snd (e, st)) by reflexivity.
  rewrite <- H in He, Hs. cbn [fst snd] in He, Hs. subst e st. split; [reflexivity|].
  apply ellipse_performs. intros x y. rewrite Rle_b. cbn. apply ellipse_iff; assumption.
Qed.
Print Assumptions C29_ellipse.

Example C29_ellipse_case : exists e, ellipse_set_half_axes R ROps 1 2 (mkEllipse 0 0 0) = (e, 0%Z).
Proof.
  unfold ellipse_set_half_axes, ellipse_set_half_axes_squ.
  assert (E : (nleb ROps (nofZ ROps 0) (nmul ROps 1 1) && nleb ROps (nofZ ROps 0) (nmul ROps 2 2))%bool = true).
  { rewrite andb_true_iff, !Rle_b. cbn. lra. }
  rewrite E. eexists; reflexivity.
Qed.

(* A copy of an aperture set by the library checks the same region. *)
Theorem C29_ellipse_copy : forall c a b e0 e1 e dst, a <> 0 -> b <> 0 ->
  ellipse_set_half_axes R ROps a b e0 = (e1, 0%Z) -> ellipse_copy R ROps dst e1 = (e, 0%Z) ->
  performs ROps c (ellipse_elem e) (closed_ellipse a b).
Proof.
  intros c a b e0 e1 e dst Ha Hb H1 H2.
  unfold ellipse_set_half_axes, ellipse_set_half_axes_squ, ellipse_copy in *.
  assert (E : (nleb ROps (nofZ ROps 0) (nmul ROps a a) && nleb ROps (nofZ ROps 0) (nmul ROps b b))%bool = true).
  { rewrite andb_true_iff, !Rle_b. cbn. nra. }
  rewrite E in H1. assert (He : e1 = fst (e1, 0%Z)) by reflexivity. rewrite <- H1 in He. cbn [fst] in He. subst e1.
  unfold ellipse_set_half_axes_squ in H2. cbn [e_a_squ e_b_squ] in H2. rewrite E in H2.
  assert (He : e = fst (e, 0%Z)) by reflexivity. rewrite <- H2 in He. cbn [fst] in He. subst e.
  apply ellipse_performs. intros x y. rewrite Rle_b. cbn. apply ellipse_iff; assumption.
Qed.
Print Assumptions C29_ellipse_copy.

Theorem C29_rect_copy : forall c src dst,
  performs ROps c (rect_elem (rect_copy dst src)) (closed_box (r_min_x src) (r_max_x src) (r_min_y src) (r_max_y src)).
Proof. intros c src dst. exact (C29_rect c (rect_copy dst src)). Qed.
Print Assumptions C29_rect_copy.

Theorem C29_rect_ellipse : forall c mx my a b r, a <> 0 -> b <> 0 ->
  re_add R ROps mx my (a * a) (b * b) = Some r ->
  performs ROps c (re_elem r) (fun x y => Rabs x <= mx /\ Rabs y <= my /\ closed_ellipse a b x y).
Proof.
  intros c mx my a b r Ha Hb H. unfold re_add in H.
  destruct (_ && _)%bool in H; [|discriminate]. injection H as <-.
  apply re_performs. intros x y. rewrite !andb_true_iff, !Rle_b. cbn. rewrite ellipse_iff by assumption.
  split.
  - intros [[[[H1 H2] H3] H4] H5]. split; [|split]; auto; apply Rabs_le; lra.
  - intros (H1 & H2 & H3). apply Rabs_le_inv in H1. apply Rabs_le_inv in H2. repeat split; auto; lra.
Qed.
Print Assumptions C29_rect_ellipse.

(* a setter changes the limit it names and no other *)
Theorem C29_setters : forall T (N : NumOps T) v r q,
  (r_min_x (rect_set_min_x T v r) = v /\ r_max_x (rect_set_min_x T v r) = r_max_x r /\
   r_min_y (rect_set_min_x T v r) = r_min_y r /\ r_max_y (rect_set_min_x T v r) = r_max_y r) /\
  (r_min_x (rect_set_max_x T v r) = r_min_x r /\ r_max_x (rect_set_max_x T v r) = v /\
   r_min_y (rect_set_max_x T v r) = r_min_y r /\ r_max_y (rect_set_max_x T v r) = r_max_y r) /\
  (r_min_x (rect_set_min_y T v r) = r_min_x r /\ r_max_x (rect_set_min_y T v r) = r_max_x r /\
   r_min_y (rect_set_min_y T v r) = v /\ r_max_y (rect_set_min_y T v r) = r_max_y r) /\
  (r_min_x (rect_set_max_y T v r) = r_min_x r /\ r_max_x (rect_set_max_y T v r) = r_max_x r /\
   r_min_y (rect_set_max_y T v r) = r_min_y r /\ r_max_y (rect_set_max_y T v r) = v) /\
  (re_max_x (re_set_max_x v q) = v /\ re_max_y (re_set_max_x v q) = re_max_y q /\ re_a_squ (re_set_max_x v q) = re_a_squ q /\
   re_b_squ (re_set_max_x v q) = re_b_squ q /\ re_ab (re_set_max_x v q) = re_ab q) /\
  (re_max_x (re_set_max_y v q) = re_max_x q /\ re_max_y (re_set_max_y v q) = v /\ re_a_squ (re_set_max_y v q) = re_a_squ q /\
   re_b_squ (re_set_max_y v q) = re_b_squ q /\ re_ab (re_set_max_y v q) = re_ab q).
Proof. intros. repeat split; reflexivity. Qed.
Print Assumptions C29_setters.

(* the half axes read back are those set, up to the sign *)
Theorem C29_ellipse_axes : forall a b e0 e st, ellipse_set_half_axes R ROps a b e0 = (e, st) ->
  ellipse_x_half_axis R ROps e = Rabs a /\ ellipse_y_half_axis R ROps e = Rabs b.
Proof.
  intros a b e0 e st H. unfold ellipse_set_half_axes, ellipse_set_half_axes_squ in H.
  assert (E : (nleb ROps (nofZ ROps 0) (nmul ROps a a) && nleb ROps (nofZ ROps 0) (nmul ROps b b))%bool = true).
  { rewrite andb_true_iff, !Rle_b. cbn. nra. }
  rewrite E in H. injection H as <- _. unfold ellipse_x_half_axis, ellipse_y_half_axis. cbn [e_a_squ e_b_squ].
  split; apply sqrt_Rsqr_abs.
Qed.
Print Assumptions C29_ellipse_axes.

(* an element is added exactly if no limit and no squared half axis is negative *)
Theorem C29_rect_ellipse_add : forall mx my a2 b2,
  (exists r, re_add R ROps mx my a2 b2 = Some r) <-> 0 <= mx /\ 0 <= my /\ 0 <= a2 /\ 0 <= b2.
Proof.
  intros mx my a2 b2. unfold re_add. destruct (_ && _)%bool eqn:E.
  - rewrite !andb_true_iff, !Rle_b in E. cbn in E. split; [tauto|eauto].
  - split; [intros (r & H); discriminate|]. intros H. exfalso. apply not_true_iff_false in E. apply E.
    rewrite !andb_true_iff, !Rle_b. cbn. tauto.
Qed.
Print Assumptions C29_rect_ellipse_add.

(* clearing a rectangle with an ellipse gives the region of the default limits *)
Theorem C29_rect_ellipse_clear : forall c mx my a b r, a <> 0 -> b <> 0 ->
  performs ROps c (re_elem (re_clear R ROps mx my a b r)) (fun x y => Rabs x <= mx /\ Rabs y <= my /\ closed_ellipse a b x y).
Proof.
  intros c mx my a b r Ha Hb. apply re_performs. intros x y. rewrite !andb_true_iff, !Rle_b. cbn. rewrite ellipse_iff by assumption.
  split.
  - intros [[[[H1 H2] H3] H4] H5]. split; [|split]; auto; apply Rabs_le; lra.
  - intros (H1 & H2 & H3). apply Rabs_le_inv in H1. apply Rabs_le_inv in H2. repeat split; auto; lra.
Qed.
Print Assumptions C29_rect_ellipse_clear.

(* a copy has the limits and half axes of the source. Missing: the product of the half axes, which
   decides about the ellipse (C29_rect_ellipse_copy_refuted). Onto an element with the same half
   axes the copy accepts what the source accepts. *)
Theorem C29_rect_ellipse_copy_partial : forall c mx my a b src dst, a <> 0 -> b <> 0 ->
  re_add R ROps mx my (a * a) (b * b) = Some src ->
  re_max_x (re_copy dst src) = mx /\ re_max_y (re_copy dst src) = my /\
  re_a_squ (re_copy dst src) = a * a /\ re_b_squ (re_copy dst src) = b * b /\
  (re_ab dst = (a * a) * (b * b) ->
   performs ROps c (re_elem (re_copy dst src)) (fun x y => Rabs x <= mx /\ Rabs y <= my /\ closed_ellipse a b x y)).
Proof.
  intros c mx my a b src dst Ha Hb H. pose proof (C29_rect_ellipse c mx my a b src Ha Hb H) as P. unfold re_add in H.
  destruct (_ && _)%bool in H; [|discriminate]. injection H as <-. repeat split; try reflexivity.
  intros Hd. unfold re_copy, re_set_b_squ, re_set_a_squ, re_set_max_x, re_set_max_y.
  cbn [re_max_x re_max_y re_a_squ re_b_squ re_ab]. rewrite Hd. exact P.
Qed.
Print Assumptions C29_rect_ellipse_copy_partial.

Example C29_rect_ellipse_case : exists r, re_add R ROps 1 1 (2 * 2) (1 * 1) = Some r.
Proof.
  unfold re_add. replace (_ && _)%bool with true.
  - eexists; reflexivity.
  - symmetry. rewrite !andb_true_iff, !Rle_b. cbn. lra.
Qed.

(* The global limit after a drift, in the modes that check every drift: the position
   reached by the drift is compared. *)
Theorem C29_global : forall c l p outs, c_aperture c = AAlways \/ c_aperture c = AUndef ->
  (exists q, dispatch ROps c (BDrift l) p outs = Some (q, outs, 0%Z) /\
     checked (open_box (c_x_limit c) (c_y_limit c)) (track_drift ROps l p) q) /\
  (exists q, dispatch ROps c (BDriftExact l) p outs = Some (q, outs, 0%Z) /\
     checked (open_box (c_x_limit c) (c_y_limit c)) (track_drift_exact ROps l p) q).
Proof.
  intros c l p outs H.
  assert (E : drift_check ROps c l = true) by (unfold drift_check; destruct H as [-> | ->]; reflexivity).
  split; eexists; cbn [dispatch]; rewrite E; (split; [reflexivity|apply global_R]).
Qed.
Print Assumptions C29_global.

Example C29_global_case : c_aperture (mkConfig AAlways None 1 1 MEnabled MEnabled MEnabled MEnabled) = AAlways.
Proof. reflexivity. Qed.

(* ---- what the code gets wrong ---- *)
Definition at_xy (x y : R) : particle R :=
  mkParticle 1 4 (3/5) (5/4) 3 0 x y 0 0 0 0 0 1 1 1 1 7 0 0 1.
Definition plain : config R := mkConfig AAlways None 1 1 MEnabled MEnabled MEnabled MEnabled.

(* the setter accepts a vanishing half axis, and then particles pass which are outside: with
   a = 0 every (0, y), with a = b = 0 everything *)
Theorem C29_degenerate_refuted : forall e0,
  (exists e, ellipse_set_half_axes R ROps 0 2 e0 = (e, 0%Z) /\
    forall y outs, exists q, dispatch ROps plain (ellipse_elem e) (at_xy 0 y) outs = Some (q, outs, 0%Z) /\ p_state q = 1%Z) /\
  (exists e, ellipse_set_half_axes R ROps 0 0 e0 = (e, 0%Z) /\
    forall x y outs, exists q, dispatch ROps plain (ellipse_elem e) (at_xy x y) outs = Some (q, outs, 0%Z) /\ p_state q = 1%Z).
Proof.
  intros e0. assert (L : forall b, (nleb ROps (nofZ ROps 0) (nmul ROps 0 0) && nleb ROps (nofZ ROps 0) (nmul ROps b b))%bool = true).
  { intros. rewrite andb_true_iff, !Rle_b. cbn. nra. }
  unfold ellipse_set_half_axes, ellipse_set_half_axes_squ. rewrite !L.
  split; eexists; (split; [reflexivity|]).
  - intros y outs. destruct (ellipse_performs R ROps plain
       (mkEllipse (nmul ROps 0 0) (nmul ROps 2 2) (nmul ROps (nmul ROps 0 0) (nmul ROps 2 2))) (fun x y => x * x * 4 <= 0)) with (p := at_xy 0 y) (outs := outs) as (q & H1 & _ & H2 & _).
    + intros x y'. rewrite Rle_b. cbn. split; intros; lra.
    + exists q. split; [exact H1|]. destruct (H2 eq_refl) as [[_ K] _]. apply K. cbn. lra.
  - intros x y outs. destruct (ellipse_performs R ROps plain
       (mkEllipse (nmul ROps 0 0) (nmul ROps 0 0) (nmul ROps (nmul ROps 0 0) (nmul ROps 0 0))) (fun x y => True)) with (p := at_xy x y) (outs := outs) as (q & H1 & _ & H2 & _).
    + intros x' y'. rewrite Rle_b. cbn. split; intros; [exact Logic.I|lra].
    + exists q. split; [exact H1|]. destruct (H2 eq_refl) as [[_ K] _]. apply K. exact Logic.I.
Qed.
Print Assumptions C29_degenerate_refuted.

(* changing a half axis of an existing rect-ellipse leaves the product of the squares: after
   widening the half axis to 10 the particle at (2, 0), well inside, is lost *)
Theorem C29_rect_ellipse_setter_refuted : exists r, re_add R ROps 100 100 (1 * 1) (1 * 1) = Some r /\
  let r' := re_set_a R ROps 10 r in
  forall outs, exists q, dispatch ROps plain (re_elem r') (at_xy 2 0) outs = Some (q, outs, 0%Z) /\ p_state q = 0%Z /\
    closed_ellipse 10 1 2 0.
Proof.
  exists (mkRE 100 100 (1 * 1) (1 * 1) ((1 * 1) * (1 * 1))). split.
  - unfold re_add. replace (_ && _)%bool with true; [reflexivity|]. symmetry. rewrite !andb_true_iff, !Rle_b. cbn. lra.
  - intros r' outs. 
    destruct (re_performs R ROps plain r' (fun x y => (x <= 100 /\ -100 <= x /\ y <= 100 /\ -100 <= y) /\ x * x + y * y * 100 <= 1))
      with (p := at_xy 2 0) (outs := outs) as (q & H1 & _ & H2 & _).
    + intros x y. rewrite !andb_true_iff, !Rle_b. cbn. lra.
    + exists q. split; [exact H1|]. destruct (H2 eq_refl) as [_ [_ K]]. split; [apply K; cbn; lra|].
      unfold closed_ellipse. lra.
Qed.
Print Assumptions C29_rect_ellipse_setter_refuted.

(* the copy of a rect-ellipse keeps the target's old product *)
Theorem C29_rect_ellipse_copy_refuted : exists src dst, 
  re_add R ROps 100 100 (10 * 10) (10 * 10) = Some src /\ re_add R ROps 100 100 (1 * 1) (1 * 1) = Some dst /\
  forall outs, 
  (exists q, dispatch ROps plain (re_elem src) (at_xy 2 0) outs = Some (q, outs, 0%Z) /\ p_state q = 1%Z) /\
  (exists q, dispatch ROps plain (re_elem (re_copy dst src)) (at_xy 2 0) outs = Some (q, outs, 0%Z) /\ p_state q = 0%Z).
Proof.
  exists (mkRE 100 100 (10 * 10) (10 * 10) ((10 * 10) * (10 * 10))), (mkRE 100 100 (1 * 1) (1 * 1) ((1 * 1) * (1 * 1))).
  split; [|split].
  - unfold re_add. replace (_ && _)%bool with true; [reflexivity|]. symmetry. rewrite !andb_true_iff, !Rle_b. cbn. lra.
  - unfold re_add. replace (_ && _)%bool with true; [reflexivity|]. symmetry. rewrite !andb_true_iff, !Rle_b. cbn. lra.
  - intros outs. split.
    + edestruct (re_performs R ROps plain (mkRE 100 100 (10 * 10) (10 * 10) ((10 * 10) * (10 * 10))) (fun x y => (x <= 100 /\ -100 <= x /\ y <= 100 /\ -100 <= y) /\ x * x * 100 + y * y * 100 <= 10000))
      with (p := at_xy 2 0) (outs := outs) as (q & H1 & _ & H2 & _); cycle 1.
      * exists q. split; [exact H1|]. destruct (H2 eq_refl) as [[_ K] _]. apply K; cbn; lra.
      * intros x y. rewrite !andb_true_iff, !Rle_b. cbn. lra.
    + edestruct (re_performs R ROps plain (re_copy (mkRE 100 100 (1 * 1) (1 * 1) ((1 * 1) * (1 * 1))) (mkRE 100 100 (10 * 10) (10 * 10) ((10 * 10) * (10 * 10)))) (fun x y => (x <= 100 /\ -100 <= x /\ y <= 100 /\ -100 <= y) /\ x * x * 100 + y * y * 100 <= 1))
      with (p := at_xy 2 0) (outs := outs) as (q & H1 & _ & H2 & _); cycle 1.
      * exists q. split; [exact H1|]. destruct (H2 eq_refl) as [_ [_ K]]. apply K; cbn; lra.
      * intros x y. rewrite !andb_true_iff, !Rle_b. cbn. lra.
Qed.
Print Assumptions C29_rect_ellipse_copy_refuted.

(* conditional check: the configured minimal drift length is not what is compared; with minimal
   length 1/2 a drift of length 3/4 is not checked *)
Theorem C29_conditional_refuted : forall outs,
  let c := mkConfig AConditional (Some (1/2)) 1 1 MEnabled MEnabled MEnabled MEnabled in
  1/2 <= 3/4 /\
  exists q, dispatch ROps c (BDrift (3/4)) (at_xy 5 0) outs = Some (q, outs, 0%Z) /\ p_state q = 1%Z /\ p_x q = 5.
Proof.
  intros outs c. split; [lra|]. eexists. cbn [dispatch]. unfold drift_check, c. cbn [c_aperture c_min_drift].
  assert (E : nleb ROps (nofZ ROps 1) (3/4) = false). { cbn. unfold Rleb. destruct (Rle_dec 1 (3/4)); auto. lra. }
  rewrite E. split; [reflexivity|]. split; [reflexivity|]. unfold track_drift, at_xy. cbn. lra.
Qed.
Print Assumptions C29_conditional_refuted.

(* ---- IEEE double precision; sin, cos, exp, pow and constants arbitrary ([L]) ---- *)
Theorem C29_rect_double : forall L c (r : rect binary64),
  fin (r_min_x r) -> fin (r_max_x r) -> fin (r_min_y r) -> fin (r_max_y r) ->
  performs (B64Ops L) c (rect_elem r) (fun x y => fin x /\ fin y /\
    closed_box (val (r_min_x r)) (val (r_max_x r)) (val (r_min_y r)) (val (r_max_y r)) (val x) (val y)).
Proof. intros. apply rect_performs. apply rect_b64; assumption. Qed.
Print Assumptions C29_rect_double.

Theorem C29_global_double : forall L (c : config binary64) l p outs,
  c_aperture c = AAlways \/ c_aperture c = AUndef -> fin (c_x_limit c) -> fin (c_y_limit c) ->
  exists q, dispatch (B64Ops L) c (BDrift l) p outs = Some (q, outs, 0%Z) /\
    checked (fun x y => fin x /\ fin y /\ open_box (val (c_x_limit c)) (val (c_y_limit c)) (val x) (val y))
      (track_drift (B64Ops L) l p) q.
Proof.
  intros L c l p outs H Fx Fy.
  assert (E : drift_check (B64Ops L) c l = true) by (unfold drift_check; destruct H as [-> | ->]; reflexivity).
  eexists; cbn [dispatch]; rewrite E; (split; [reflexivity|apply global_b64; assumption]).
Qed.
Print Assumptions C29_global_double.

Example C29_double_case : fin (b64_ofZ 1) /\ fin (Bopp (b64_ofZ 1)) /\ val (b64_ofZ 1) = 1.
Proof. split; [reflexivity|split; [reflexivity|]]. unfold val, b64_ofZ. vm_compute B2R. cbn. lra. Qed.

(* A particle with a non-finite coordinate never passes an ellipse (or rect-ellipse) whose
   squared half axes are non-negative, if their product is finite. *)
Theorem C29_nonfinite_double : forall L c a2 b2 e0 e p outs,
  ellipse_set_half_axes_squ binary64 (B64Ops L) a2 b2 e0 = (e, 0%Z) -> fin (e_a_b_squ e) ->
  ~ (fin (p_x p) /\ fin (p_y p)) -> p_state p = 1%Z ->
  exists q, dispatch (B64Ops L) c (ellipse_elem e) p outs = Some (q, outs, 0%Z) /\ p_state q = 0%Z.
Proof.
  intros L c a2 b2 e0 e p outs H F Hn Hs. unfold ellipse_set_half_axes_squ in H.
  destruct (_ && _)%bool eqn:E in H; [|discriminate]. apply andb_true_iff in E as [E1 E2].
  assert (He : e = fst (e, 0%Z)) by reflexivity. rewrite <- H in He. cbn [fst] in He. clear H.
  destruct (ellipse_performs binary64 (B64Ops L) c e (fun x y => 
     nleb (B64Ops L) (nadd (B64Ops L) (nmul (B64Ops L) (nmul (B64Ops L) x x) (e_b_squ e)) (nmul (B64Ops L) (nmul (B64Ops L) y y) (e_a_squ e)))
                 (e_a_b_squ e) = true) (fun x y => conj (fun h => h) (fun h => h)) p outs) as (q & H1 & _ & H2 & _).
  exists q. split; [exact H1|]. apply (H2 Hs). apply not_true_iff_false.
  cbn [nleb nadd nmul B64Ops]. subst e. cbn [e_a_squ e_b_squ e_a_b_squ] in *.
  apply ellipse_nonfin; auto.
Qed.
Print Assumptions C29_nonfinite_double.

Definition two64 : binary64 := b64_ofZ 2.

Example C29_nonfinite_double_case : forall L,
  (exists e, ellipse_set_half_axes_squ binary64 (B64Ops L) two64 two64 (mkEllipse two64 two64 two64) = (e, 0%Z) /\ fin (e_a_b_squ e)) /\
  ~ (fin (B754_nan : binary64) /\ fin two64) /\ ~ (fin (B754_infinity true : binary64) /\ fin two64).
Proof.
  intros L. split; [|split; intros []; discriminate].
  eexists. split; [reflexivity|]. reflexivity.
Qed.

Theorem C29_rect_ellipse_nonfinite_double : forall L c mx my a2 b2 ab p outs,
  fin mx -> fin my -> ~ (fin (p_x p) /\ fin (p_y p)) -> p_state p = 1%Z ->
  exists q, dispatch (B64Ops L) c (BLimitRectEllipse mx my a2 b2 ab) p outs = Some (q, outs, 0%Z) /\ p_state q = 0%Z.
Proof.
  intros L c mx my a2 b2 ab p outs Fx Fy Hn Hs.
  destruct (re_performs binary64 (B64Ops L) c (mkRE mx my a2 b2 ab) _ (fun x y => conj (fun h => h) (fun h => h)) p outs) as (q & H1 & _ & H2 & _).
  exists q. split; [exact H1|]. apply (H2 Hs). apply not_true_iff_false.
  apply not_true_iff_false. cbn [re_max_x re_max_y re_a_squ re_b_squ re_ab nleb nopp B64Ops].
  rewrite !andb_true_iff. intros [[[[A B] C] D] _]. apply Hn.
  assert (Op : forall v : binary64, fin v -> fin (Bopp v)) by (intros v; unfold fin; rewrite is_finite_Bopp; auto).
  split; [exact (between_fin _ _ _ (Op _ Fx) Fx B A)|exact (between_fin _ _ _ (Op _ Fy) Fy D C)].
Qed.
Print Assumptions C29_rect_ellipse_nonfinite_double.

(* The ellipse check in double precision decides correctly up to a relative margin of 8 * 2^-53,
   for half axes and positions of moderate size. *)
Theorem C29_ellipse_double : forall L c a2 b2 e0 e p outs,
  ellipse_set_half_axes_squ binary64 (B64Ops L) a2 b2 e0 = (e, 0%Z) ->
  moderate a2 -> moderate b2 -> val a2 <> 0 -> val b2 <> 0 -> moderate (p_x p) -> moderate (p_y p) -> p_state p = 1%Z ->
  exists q, dispatch (B64Ops L) c (ellipse_elem e) p outs = Some (q, outs, 0%Z) /\
   let r := val (p_x p) ^ 2 / val a2 + val (p_y p) ^ 2 / val b2 in
   (r <= 1 - 8 / 2 ^ 53 -> p_state q = 1%Z) /\ (1 + 8 / 2 ^ 53 <= r -> p_state q = 0%Z).
Proof.
  intros L c a2 b2 e0 e p outs H Ma Mb Na Nb Mx My Hs. unfold ellipse_set_half_axes_squ in H.
  destruct (_ && _)%bool eqn:E in H; [|discriminate]. apply andb_true_iff in E as [E1 E2].
  assert (He : e = fst (e, 0%Z)) by reflexivity. rewrite <- H in He. cbn [fst] in He. clear H.
  destruct (ellipse_performs binary64 (B64Ops L) c e (fun x y => 
     nleb (B64Ops L) (nadd (B64Ops L) (nmul (B64Ops L) (nmul (B64Ops L) x x) (e_b_squ e)) (nmul (B64Ops L) (nmul (B64Ops L) y y) (e_a_squ e)))
                 (e_a_b_squ e) = true) (fun x y => conj (fun h => h) (fun h => h)) p outs) as (q & H1 & _ & H2 & _).
  exists q. split; [exact H1|]. destruct (H2 Hs) as [K1 K0]. 
  assert (Pos : forall v : binary64, moderate v -> val v <> 0 -> Bleb (b64_ofZ 0) v = true -> fin v /\ / M <= val v <= M).
  { intros v [Fv Mv] Nv Pv. split; auto. destruct Mv as [Mv|Mv]; [contradiction|].
    apply fin_le in Pv; [|reflexivity|auto]. rewrite (proj1 ofZ0) in Pv. rewrite Rabs_pos_eq in Mv by exact Pv. exact Mv. }
  destruct (Pos a2 Ma Na E1) as [Fa Ra]. destruct (Pos b2 Mb Nb E2) as [Fb Rb].
  destruct (ellipse_rel a2 b2 (p_x p) (p_y p) Fa Fb Ra Rb Mx My) as [Y1 Y0].
  subst e. cbn [e_a_squ e_b_squ e_a_b_squ nleb nadd nmul B64Ops] in *.
  cbv zeta in *. unfold u64 in Y1, Y0. unfold Rdiv in *. split; intros Hr.
  - apply K1. apply Y1. exact Hr.
  - apply K0. rewrite (Y0 Hr). discriminate.
Qed.
Print Assumptions C29_ellipse_double.

Lemma moderate_small : forall z, (1 <= Z.abs z <= 1000)%Z -> fin (b64_ofZ z) -> val (b64_ofZ z) = IZR z -> moderate (b64_ofZ z).
Proof.
  intros z Hz F V. split; auto. right. rewrite V, <- abs_IZR. pose proof M_big as HM. fold M. 
  assert (1 <= IZR (Z.abs z) <= 1000) by (split; apply IZR_le; lia).
  assert (/ M < / 1000) by (apply Rinv_lt_contravar; lra). lra.
Qed.

Lemma val_2 : val (b64_ofZ 2) = 2.
Proof. rewrite (val_sf (b64_ofZ 2) (SpecFloat.S754_finite false 4503599627370496 (-51))) by (vm_compute; reflexivity). cbn [SF2R]. unfold F2R, cond_Zopp. cbn [Fnum Fexp bpow]. cbn. lra. Qed.

Example C29_ellipse_double_case : moderate two64 /\ val two64 <> 0.
Proof.
  split; [apply moderate_small; [lia|reflexivity|apply val_2]|]. unfold two64. rewrite val_2. lra.
Qed.

Definition at_xy64 (x y : binary64) : particle binary64 :=
  let z := b64_ofZ 0 in mkParticle z z z z z z x y z z z z z z z z z 7 0 0 1.
Definition plain64 : config binary64 := mkConfig AAlways None two64 two64 MEnabled MEnabled MEnabled MEnabled.

(* If the product of the squared half axes overflows, infinitely distant particles pass. *)
Theorem C29_overflow_double_refuted : forall L e0 outs,
  let a2 := b64_ofZ (2 ^ 600) in
  exists e, ellipse_set_half_axes_squ binary64 (B64Ops L) a2 a2 e0 = (e, 0%Z) /\ fin a2 /\
  exists q, dispatch (B64Ops L) plain64 (ellipse_elem e) (at_xy64 (B754_infinity false) two64) outs = Some (q, outs, 0%Z) /\ p_state q = 1%Z.
Proof.
  intros L e0 outs a2. eexists. split; [reflexivity|]. split; [reflexivity|]. eexists. split; [reflexivity|].
  vm_compute. reflexivity.
Qed.
Print Assumptions C29_overflow_double_refuted.

(* If it underflows, particles far outside pass: half axes 2^-300, particle at 2^-280. *)
Theorem C29_underflow_double_refuted : forall L e0 outs,
  let tiny k := Bdiv mode_NE (b64_ofZ 1) (b64_ofZ (2 ^ k)) in
  exists e, ellipse_set_half_axes binary64 (B64Ops L) (tiny 300%Z) (tiny 300%Z) e0 = (e, 0%Z) /\
  exists q, dispatch (B64Ops L) plain64 (ellipse_elem e) (at_xy64 (tiny 280%Z) (b64_ofZ 0)) outs = Some (q, outs, 0%Z) /\ p_state q = 1%Z.
Proof.
  intros L e0 outs tiny. eexists. split; [reflexivity|]. eexists. split; [reflexivity|].
  vm_compute. reflexivity.
Qed.
Print Assumptions C29_underflow_double_refuted.
