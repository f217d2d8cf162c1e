(* Derivatives of the transverse maps and their symplecticity. *)
From Coq Require Import ZArith Reals Lra Lia Bool List Psatz.
From Coquelicot Require Import Coquelicot.
From Verif Require Import Num Particle Energy Elements MapsR OpticsSpec OpticsProofs MultipoleProofs SymplecticSpec.
Import ListNotations.
Local Open Scope R_scope.

Ltac rring := cbv beta; cbn [fst snd]; ring.

(* ---- calculus of real functions on a normed space ---- *)
Section Calc.
Context {U : NormedModule R_AbsRing} (v : U).
Definition D (f : U -> R) (l : U -> R) : Prop := filterdiff (V := R_NormedModule) f (locally v) l.

Lemma D_const : forall c : R, D (fun _ => c) (fun _ => 0).
Proof. intros. apply (filterdiff_const (V := R_NormedModule)). Qed.

Lemma D_plus : forall f g lf lg, D f lf -> D g lg -> D (fun u => f u + g u) (fun h => lf h + lg h).
Proof. intros. apply (filterdiff_plus_fct (V := R_NormedModule)); auto. Qed.

Lemma D_minus : forall f g lf lg, D f lf -> D g lg -> D (fun u => f u - g u) (fun h => lf h - lg h).
Proof. intros. apply (filterdiff_minus_fct (V := R_NormedModule)); auto. Qed.

Lemma D_mult : forall f g lf lg, D f lf -> D g lg ->
  D (fun u => f u * g u) (fun h => lf h * g v + f v * lg h).
Proof.
  intros f g lf lg Hf Hg.
  eapply (filterdiff_ext_lin (V := R_NormedModule)).
  - apply (filterdiff_mult_fct f g v lf lg Rmult_comm Hf Hg).
  - intros y. unfold plus, mult; cbn. ring.
Qed.

Lemma D_comp : forall f lf (phi : R -> R) (c : R), D f lf -> is_derive phi (f v) c ->
  D (fun u => phi (f u)) (fun h => c * lf h).
Proof.
  intros f lf phi c Hf Hp.
  eapply (filterdiff_ext_lin (V := R_NormedModule)).
  - apply (filterdiff_comp' (U := U) (V := R_NormedModule) (W := R_NormedModule) f phi v lf _ Hf Hp).
  - intros y. unfold scal; cbn. unfold mult; cbn. ring.
Qed.

Lemma D_ext : forall f g l, (forall u, f u = g u) -> D f l -> D g l.
Proof. intros f g l H. apply (filterdiff_ext (V := R_NormedModule)). exact H. Qed.

Lemma D_ext_lin : forall f l m, D f l -> (forall h, l h = m h) -> D f m.
Proof. intros f l m H E. eapply (filterdiff_ext_lin (V := R_NormedModule)); eauto. Qed.

Lemma D_pair : forall (V W : NormedModule R_AbsRing) (f : U -> V) (g : U -> W) lf lg,
  filterdiff f (locally v) lf -> filterdiff g (locally v) lg ->
  filterdiff (fun u => (f u, g u)) (locally v) (fun h => (lf h, lg h)).
Proof.
  intros V W f g lf lg Hf Hg.
  apply (filterdiff_comp'_2 f g (fun a b => (a, b)) v lf lg (fun a b => (a, b)) Hf Hg).
  apply filterdiff_linear. eapply is_linear_ext; [|apply is_linear_id]. intros [a b]. reflexivity.
Qed.
End Calc.

Definition projections (v : phase) : phase * phase := (v, v).

Section Phase.
Variable v : phase.
Notation DP := (@D (prod_NormedModule R_AbsRing (prod_NormedModule R_AbsRing R_NormedModule R_NormedModule)
                      (prod_NormedModule R_AbsRing R_NormedModule R_NormedModule)) v).

Lemma D_x : DP (fun u : phase => fst (fst u)) (fun h => fst (fst h)).
Proof.
  apply (filterdiff_linear (V := R_NormedModule)). apply (is_linear_comp (fun u : phase => fst u) fst).
  - apply is_linear_fst.
  - apply (is_linear_fst (U := R_NormedModule) (V := R_NormedModule)).
Qed.
Lemma D_px : DP (fun u : phase => snd (fst u)) (fun h => snd (fst h)).
Proof.
  apply (filterdiff_linear (V := R_NormedModule)). apply (is_linear_comp (fun u : phase => fst u) snd).
  - apply is_linear_fst.
  - apply (is_linear_snd (U := R_NormedModule) (V := R_NormedModule)).
Qed.
Lemma D_y : DP (fun u : phase => fst (snd u)) (fun h => fst (snd h)).
Proof.
  apply (filterdiff_linear (V := R_NormedModule)). apply (is_linear_comp (fun u : phase => snd u) fst).
  - apply is_linear_snd.
  - apply (is_linear_fst (U := R_NormedModule) (V := R_NormedModule)).
Qed.
Lemma D_py : DP (fun u : phase => snd (snd u)) (fun h => snd (snd h)).
Proof.
  apply (filterdiff_linear (V := R_NormedModule)). apply (is_linear_comp (fun u : phase => snd u) snd).
  - apply is_linear_snd.
  - apply (is_linear_snd (U := R_NormedModule) (V := R_NormedModule)).
Qed.

Lemma DP_lin : forall (f : phase -> R) (l m : phase -> R), DP f l ->
  (forall x px y py : R, l ((x, px), (y, py)) = m ((x, px), (y, py))) -> DP f m.
Proof. intros f l m H E. eapply D_ext_lin; [exact H|]. intros [[x px] [y py]]. apply E. Qed.

Lemma D_phase : forall f1 f2 f3 f4 l1 l2 l3 l4, DP f1 l1 -> DP f2 l2 -> DP f3 l3 -> DP f4 l4 ->
  filterdiff (fun u : phase => ((f1 u, f2 u), (f3 u, f4 u)) : phase) (locally v)
             (fun h : phase => ((l1 h, l2 h), (l3 h, l4 h)) : phase).
Proof.
  intros. apply (D_pair v _ _ (fun u => (f1 u, f2 u)) (fun u => (f3 u, f4 u))).
  - apply (D_pair v R_NormedModule R_NormedModule); assumption.
  - apply (D_pair v R_NormedModule R_NormedModule); assumption.
Qed.

(* ---- the general shapes ---- *)
(* a kick: momenta change by a function of the positions with symmetric derivatives *)
Lemma kick_symplectic : forall (f g : phase -> R) (a b d : R),
  DP f (fun h => a * fst (fst h) + b * fst (snd h)) ->
  DP g (fun h => b * fst (fst h) + d * fst (snd h)) ->
  symplectic_at (fun u => ((fst (fst u), snd (fst u) + f u), (fst (snd u), snd (snd u) + g u))) v.
Proof.
  intros f g a b d Hf Hg. eexists. split.
  - apply D_phase.
    + apply D_x.
    + apply (D_plus v _ _ _ _ D_px Hf).
    + apply D_y.
    + apply (D_plus v _ _ _ _ D_py Hg).
  - intros [[x1 p1] [y1 q1]] [[x2 p2] [y2 q2]]. unfold omega. cbn [fst snd]. ring.
Qed.

(* a shear: positions change by a function of the momenta with symmetric derivatives *)
Lemma shear_symplectic : forall (f g : phase -> R) (a b d : R),
  DP f (fun h => a * snd (fst h) + b * snd (snd h)) ->
  DP g (fun h => b * snd (fst h) + d * snd (snd h)) ->
  symplectic_at (fun u => ((fst (fst u) + f u, snd (fst u)), (fst (snd u) + g u, snd (snd u)))) v.
Proof.
  intros f g a b d Hf Hg. eexists. split.
  - apply D_phase.
    + apply (D_plus v _ _ _ _ D_x Hf).
    + apply D_px.
    + apply (D_plus v _ _ _ _ D_y Hg).
    + apply D_py.
  - intros [[x1 p1] [y1 q1]] [[x2 p2] [y2 q2]]. unfold omega. cbn [fst snd]. ring.
Qed.

Lemma drift_sym : forall l rpp : R,
  symplectic_at (fun u : phase => ((fst (fst u) + snd (fst u) * rpp * l, snd (fst u)),
                                   (fst (snd u) + snd (snd u) * rpp * l, snd (snd u)))) v.
Proof.
  intros l rpp.
  apply (shear_symplectic (fun u => snd (fst u) * rpp * l) (fun u => snd (snd u) * rpp * l) (rpp * l) 0 (rpp * l)).
  - eapply DP_lin.
    + apply (D_mult v _ _ _ _ (D_mult v _ _ _ _ D_px (D_const v rpp)) (D_const v l)).
    + intros; rring.
  - eapply DP_lin.
    + apply (D_mult v _ _ _ _ (D_mult v _ _ _ _ D_py (D_const v rpp)) (D_const v l)).
    + intros; rring.
Qed.

Lemma exact_sym : forall l opd : R, snd (fst v) ^ 2 + snd (snd v) ^ 2 < opd ^ 2 ->
  symplectic_at (fun u : phase =>
    ((fst (fst u) + snd (fst u) * (l / sqrt (opd * opd - (snd (fst u) * snd (fst u) + snd (snd u) * snd (snd u)))), snd (fst u)),
     (fst (snd u) + snd (snd u) * (l / sqrt (opd * opd - (snd (fst u) * snd (fst u) + snd (snd u) * snd (snd u)))), snd (snd u)))) v.
Proof.
  intros l opd Hv.
  set (w := fun u : phase => opd * opd - (snd (fst u) * snd (fst u) + snd (snd u) * snd (snd u))).
  set (px := snd (fst v)) in *. set (py := snd (snd v)) in *.
  assert (Hw : 0 < w v) by (unfold w; fold px py; nra).
  assert (Dw : DP w (fun h => -2 * px * snd (fst h) - 2 * py * snd (snd h))).
  { eapply DP_lin.
    - apply (D_minus v _ _ _ _ (D_const v (opd * opd))
        (D_plus v _ _ _ _ (D_mult v _ _ _ _ D_px D_px) (D_mult v _ _ _ _ D_py D_py))).
    - intros; cbv beta; cbn [fst snd]; fold px py; ring. }
  set (sq := sqrt (w v)). assert (Hsq : 0 < sq) by (apply sqrt_lt_R0; exact Hw).
  assert (Dphi : is_derive (fun z : R => l / sqrt z) (w v) (- l / (2 * sq ^ 3))).
  { evar_last.
    - apply (is_derive_comp (fun z : R => l / z) sqrt).
      + auto_derive; [|reflexivity]. apply Rgt_not_eq. exact Hsq.
      + auto_derive; [exact Hw|reflexivity].
    - unfold scal; cbn. unfold mult; cbn. fold sq. field. apply Rgt_not_eq; exact Hsq. }
  pose proof (D_comp v w _ _ _ Dw Dphi) as Dr.
  set (k := l / sq ^ 3).
  apply (shear_symplectic (fun u => snd (fst u) * (l / sqrt (w u))) (fun u => snd (snd u) * (l / sqrt (w u)))
    (l / sq + px ^ 2 * k) (px * py * k) (l / sq + py ^ 2 * k)).
  - eapply DP_lin.
    + apply (D_mult v _ _ _ _ D_px Dr).
    + intros; cbv beta; cbn [fst snd]; fold px sq; unfold k; field; lra.
  - eapply DP_lin.
    + apply (D_mult v _ _ _ _ D_py Dr).
    + intros; cbv beta; cbn [fst snd]; fold py sq; unfold k; field; lra.
Qed.

(* ---- complex polynomials satisfy the Cauchy-Riemann equations ---- *)
Definition holo (f : phase -> C) : Prop := exists A B : R,
  DP (fun u => Re (f u)) (fun h => A * fst (fst h) - B * fst (snd h)) /\
  DP (fun u => Im (f u)) (fun h => B * fst (fst h) + A * fst (snd h)).

Lemma holo_const : forall z : C, holo (fun _ => z).
Proof.
  intros z. exists 0, 0. split; (eapply DP_lin; [apply D_const|]); intros; rring.
Qed.

Lemma holo_z : holo (fun u => (fst (fst u), fst (snd u))).
Proof.
  exists 1, 0. split; unfold Re, Im; cbn [fst snd].
  - eapply DP_lin; [apply D_x|]. intros; rring.
  - eapply DP_lin; [apply D_y|]. intros; rring.
Qed.

Lemma holo_plus : forall f g, holo f -> holo g -> holo (fun u => Cplus (f u) (g u)).
Proof.
  intros f g (A & B & H1 & H2) (A' & B' & H3 & H4). exists (A + A'), (B + B').
  split; unfold Re, Im, Cplus in *; cbn [fst snd].
  - eapply DP_lin; [apply (D_plus v _ _ _ _ H1 H3)|]. intros; rring.
  - eapply DP_lin; [apply (D_plus v _ _ _ _ H2 H4)|]. intros; rring.
Qed.

Lemma holo_mult : forall f g, holo f -> holo g -> holo (fun u => Cmult (f u) (g u)).
Proof.
  intros f g (A & B & H1 & H2) (A' & B' & H3 & H4). unfold Re, Im in *.
  exists (A * fst (g v) - B * snd (g v) + (fst (f v) * A' - snd (f v) * B')),
         (A * snd (g v) + B * fst (g v) + (fst (f v) * B' + snd (f v) * A')).
  split; unfold Re, Im, Cmult; cbn [fst snd].
  - eapply DP_lin; [apply (D_minus v _ _ _ _ (D_mult v _ _ _ _ H1 H3) (D_mult v _ _ _ _ H2 H4))|].
    intros; rring.
  - eapply DP_lin; [apply (D_plus v _ _ _ _ (D_mult v _ _ _ _ H1 H4) (D_mult v _ _ _ _ H2 H3))|].
    intros; rring.
Qed.

Lemma holo_ext : forall f g, (forall u, f u = g u) -> holo f -> holo g.
Proof.
  intros f g E (A & B & H1 & H2). exists A, B. split.
  - eapply D_ext; [|exact H1]. intros u. cbv beta. now rewrite E.
  - eapply D_ext; [|exact H2]. intros u. cbv beta. now rewrite E.
Qed.

Lemma holo_pow : forall n, holo (fun u => Cpow (fst (fst u), fst (snd u)) n).
Proof.
  induction n.
  - exact (holo_const (RtoC 1)).
  - exact (holo_mult _ _ holo_z IHn).
Qed.

Lemma holo_sum : forall ba order, holo (fun u => multipole_sum ba order (fst (fst u)) (fst (snd u))).
Proof.
  intros ba order. unfold multipole_sum. induction order.
  - refine (holo_ext _ _ _ (holo_mult _ _ (holo_const (nth (2 * 0) ba 0, nth (2 * 0 + 1) ba 0)) (holo_pow 0))).
    intros u. symmetry. exact (sum_O _).
  - refine (holo_ext _ _ _ (holo_plus _ _ IHorder
      (holo_mult _ _ (holo_const (nth (2 * S order) ba 0, nth (2 * S order + 1) ba 0)) (holo_pow (S order))))).
    intros u. symmetry. exact (sum_Sn _ _).
Qed.

Lemma multipole_sym : forall order length hxl hyl ba chi delta,
  symplectic_at (fun u : phase =>
    ((fst (fst u), snd (fst u) + (- chi * Re (multipole_sum ba order (fst (fst u)) (fst (snd u)))
        + curvature_px hxl length (nth 0 ba 0) chi (fst (fst u)) delta)),
     (fst (snd u), snd (snd u) + (chi * Im (multipole_sum ba order (fst (fst u)) (fst (snd u)))
        + curvature_py hyl length (nth 1 ba 0) chi (fst (snd u)) delta)))) v.
Proof.
  intros order length hxl hyl ba chi delta.
  destruct (holo_sum ba order) as (A & B & H1 & H2).
  set (b0 := nth 0 ba 0). set (a0 := nth 1 ba 0).
  assert (Cx : exists k, DP (fun u => curvature_px hxl length b0 chi (fst (fst u)) delta) (fun h => k * fst (fst h))).
  { unfold curvature_px. destruct (Rlt_dec 0 length).
    - exists (- (chi * b0 * hxl / length)). eapply DP_lin.
      + apply (D_comp v (fun u => fst (fst u)) _ (fun z : R => hxl * (1 + delta) - chi * b0 * hxl * z / length)
                 (- (chi * b0 * hxl / length)) D_x).
        auto_derive; [trivial|]. field. lra.
      + intros; reflexivity.
    - exists 0. eapply DP_lin; [apply D_const|]. intros; rring. }
  assert (Cy : exists k, DP (fun u => curvature_py hyl length a0 chi (fst (snd u)) delta) (fun h => k * fst (snd h))).
  { unfold curvature_py. destruct (Rlt_dec 0 length).
    - exists (chi * a0 * hyl / length). eapply DP_lin.
      + apply (D_comp v (fun u => fst (snd u)) _ (fun z : R => - hyl * (1 + delta) + chi * a0 * hyl * z / length)
                 (chi * a0 * hyl / length) D_y).
        auto_derive; [trivial|]. field. lra.
      + intros; reflexivity.
    - exists 0. eapply DP_lin; [apply D_const|]. intros; rring. }
  destruct Cx as (kx & Hx), Cy as (ky & Hy).
  apply (kick_symplectic
    (fun u => - chi * Re (multipole_sum ba order (fst (fst u)) (fst (snd u))) + curvature_px hxl length b0 chi (fst (fst u)) delta)
    (fun u => chi * Im (multipole_sum ba order (fst (fst u)) (fst (snd u))) + curvature_py hyl length a0 chi (fst (snd u)) delta)
    (- chi * A + kx) (chi * B) (chi * A + ky)).
  - eapply DP_lin.
    + apply (D_plus v _ _ _ _ (D_mult v _ _ _ _ (D_const v (- chi)) H1) Hx).
    + intros; rring.
  - eapply DP_lin.
    + apply (D_plus v _ _ _ _ (D_mult v _ _ _ _ (D_const v chi) H2) Hy).
    + intros; rring.
Qed.

Lemma dipedge_sym : forall r21 r43 : R,
  symplectic_at (fun u : phase => ((fst (fst u), snd (fst u) + r21 * fst (fst u)),
                                   (fst (snd u), snd (snd u) + r43 * fst (snd u)))) v.
Proof.
  intros r21 r43. apply (kick_symplectic (fun u => r21 * fst (fst u)) (fun u => r43 * fst (snd u)) r21 0 r43).
  - eapply DP_lin; [apply (D_mult v _ _ _ _ (D_const v r21) D_x)|]. intros; rring.
  - eapply DP_lin; [apply (D_mult v _ _ _ _ (D_const v r43) D_y)|]. intros; rring.
Qed.

Lemma shift_sym : forall dx dy : R,
  symplectic_at (fun u : phase => ((fst (fst u) + dx, snd (fst u)), (fst (snd u) + dy, snd (snd u)))) v.
Proof.
  intros dx dy. apply (shear_symplectic (fun _ => dx) (fun _ => dy) 0 0 0);
    (eapply DP_lin; [apply D_const|]; intros; rring).
Qed.

Lemma rotation_sym : forall c s : R, c ^ 2 + s ^ 2 = 1 ->
  symplectic_at (fun u : phase => ((c * fst (fst u) + s * fst (snd u), c * snd (fst u) + s * snd (snd u)),
                                   (- s * fst (fst u) + c * fst (snd u), - s * snd (fst u) + c * snd (snd u)))) v.
Proof.
  intros c s H. eexists. split.
  - apply D_phase.
    + apply (D_plus v _ _ _ _ (D_mult v _ _ _ _ (D_const v c) D_x) (D_mult v _ _ _ _ (D_const v s) D_y)).
    + apply (D_plus v _ _ _ _ (D_mult v _ _ _ _ (D_const v c) D_px) (D_mult v _ _ _ _ (D_const v s) D_py)).
    + apply (D_plus v _ _ _ _ (D_mult v _ _ _ _ (D_const v (- s)) D_x) (D_mult v _ _ _ _ (D_const v c) D_y)).
    + apply (D_plus v _ _ _ _ (D_mult v _ _ _ _ (D_const v (- s)) D_px) (D_mult v _ _ _ _ (D_const v c) D_py)).
  - intros [[x1 p1] [y1 q1]] [[x2 p2] [y2 q2]]. unfold omega. cbn [fst snd].
    replace (x1 * p2 - p1 * x2 + (y1 * q2 - q1 * y2)) with ((c ^ 2 + s ^ 2) * (x1 * p2 - p1 * x2 + (y1 * q2 - q1 * y2)))
      by (rewrite H; ring). ring.
Qed.
End Phase.

Lemma symplectic_id : forall v, symplectic_at (fun u => u) v.
Proof. intros v. exists (fun h => h). split; [apply filterdiff_id|reflexivity]. Qed.

Lemma symplectic_comp : forall f g v, symplectic_at f v -> symplectic_at g (f v) -> symplectic_at (fun u => g (f u)) v.
Proof.
  intros f g v (L & H1 & H2) (L' & H3 & H4). exists (fun h => L' (L h)). split.
  - apply (filterdiff_comp' f g v L L' H1 H3).
  - intros a b. now rewrite H4, H2.
Qed.

Lemma symplectic_ext_loc : forall (f g : phase -> phase) v, locally v (fun u => f u = g u) -> symplectic_at f v -> symplectic_at g v.
Proof.
  intros f g v E (L & H1 & H2). exists L. split; [|exact H2].
  apply (filterdiff_ext_locally f g v L E H1).
Qed.

Lemma symplectic_continuous : forall f v, symplectic_at f v -> continuous f v.
Proof.
  intros f v (L & H & _). exact (filterdiff_continuous f v (ex_intro _ L H)).
Qed.
