(* Facts about the dispatcher Elements.dispatch that hold for every element. *)
From Coq Require Import ZArith List Bool Lia.
From Verif Require Import Num Particle Energy Interp TriCubCoefs TriCub BeamFields Elements TrackSpec.
Import ListNotations.
Local Open Scope Z_scope.

(* Attributes that no element may touch: the reference particle (q0, mass0, beta0,
   gamma0, p0c), the charge and mass ratios and the three integer counters. *)
Definition same_reference {T} (p p' : particle T) : Prop :=
  p_q0 p' = p_q0 p /\ p_mass0 p' = p_mass0 p /\ p_beta0 p' = p_beta0 p /\
  p_gamma0 p' = p_gamma0 p /\ p_p0c p' = p_p0c p /\ p_chi p' = p_chi p /\
  p_charge_ratio p' = p_charge_ratio p /\ p_particle_id p' = p_particle_id p.

Definition same_counters {T} (p p' : particle T) : Prop :=
  p_at_element_id p' = p_at_element_id p /\ p_at_turn p' = p_at_turn p.

Definition kept {T} (p p' : particle T) : Prop :=
  same_reference p p' /\ same_counters p p'.

Lemma kept_refl : forall T (p : particle T), kept p p.
Proof. intros. repeat split. Qed.

Lemma kept_trans : forall T (p q r : particle T), kept p q -> kept q r -> kept p r.
Proof.
  intros T p q r H1 H2.
  unfold kept, same_reference, same_counters in *.
  decompose [and] H1; decompose [and] H2. repeat split; congruence.
Qed.

Ltac kept_tac := unfold kept, same_reference, same_counters; cbn; repeat split; reflexivity.

Section D.
Context {T : Type} (N : NumOps T) (c : config T).

Lemma obind_some : forall A B (m : option A) (f : A -> option B) b,
  obind m f = Some b -> exists a, m = Some a /\ f a = Some b.
Proof. intros A B [a|] f b H; [eauto|discriminate]. Qed.

Lemma some_eq : forall A (a b : A), Some a = Some b -> b = a.
Proof. congruence. Qed.

Lemma kept_drift : forall l p, kept p (track_drift N l p). Proof. intros; kept_tac. Qed.
Lemma kept_drift_exact : forall l p, kept p (track_drift_exact N l p). Proof. intros; kept_tac. Qed.
Lemma kept_limit_global : forall p, kept p (track_limit_global N c p). Proof. intros; kept_tac. Qed.

Lemma kept_multipole : forall o l hx hy b p, kept p (track_multipole N o l hx hy b p).
Proof.
  intros. unfold track_multipole.
  destruct (_ || _ || _ || _); [destruct (nltb N (nofZ N 0) l)|]; kept_tac.
Qed.

Lemma kept_rfmultipole : forall o v f l b ph p, kept p (track_rfmultipole N o v f l b ph p).
Proof.
  intros. unfold track_rfmultipole.
  destruct (fold_left _ _ _) as [[[[? ?] ?] ?] ?]. kept_tac.
Qed.

Lemma kept_cavity : forall v f l p, kept p (track_cavity N v f l p). Proof. intros; kept_tac. Qed.
Lemma kept_xyshift : forall a b p, kept p (track_xyshift N a b p). Proof. intros; kept_tac. Qed.
Lemma kept_srotation : forall a b p, kept p (track_srotation N a b p). Proof. intros; kept_tac. Qed.
Lemma kept_dipedge : forall a b p, kept p (track_dipedge N a b p). Proof. intros; kept_tac. Qed.
Lemma kept_limit_rect : forall a b d e p, kept p (track_limit_rect N a b d e p).
Proof. intros; kept_tac. Qed.
Lemma kept_limit_ellipse : forall a b d p, kept p (track_limit_ellipse N a b d p).
Proof. intros; kept_tac. Qed.
Lemma kept_limit_rect_ellipse : forall a b d e f p, kept p (track_limit_rect_ellipse N a b d e f p).
Proof. intros; kept_tac. Qed.

(* maps that can only fail by undefined behaviour keep the state as well *)
Definition kept_st (p p' : particle T) : Prop := kept p p' /\ p_state p' = p_state p.

Ltac kst := split; [kept_tac|reflexivity].

Ltac open H :=
  repeat match type of H with
  | obind _ _ = Some _ => apply obind_some in H as (? & _ & H)
  | (if ?b then _ else _) = Some _ => destruct b
  | (match ?b with _ => _ end) = Some _ => destruct b; try discriminate
  end; inversion H; subst.

Lemma kept_tricub : forall t p p', track_tricub N t p = Some p' -> kept_st p p'.
Proof.
  intros t p p' H. unfold track_tricub in H.
  do 3 (apply obind_some in H as (? & _ & H)).
  destruct (construct_b _ _ _ _) as [b|]; [|discriminate]. cbn [obind] in H.
  revert H. generalize (construct_coefs N (nthT N b)) as cf.
  generalize (kick_sum N) as ks. intros ks cf H.
  apply some_eq in H. rewrite H. clear H p'.
  unfold kept_st, kept, same_reference, same_counters. repeat apply conj; reflexivity.
Qed.

Lemma kept_bb4d : forall b p p', track_bb4d N b p = Some p' -> kept_st p p'.
Proof. intros b p p' H. unfold track_bb4d in H. open H; kst. Qed.

Lemma kept_bb6d : forall b p p', track_bb6d N b p = Some p' -> kept_st p p'.
Proof.
  intros b p p' H. unfold track_bb6d in H.
  destruct (nltb N (nofZ N 0) (b6_enabled b)); [|inversion H; subst; kst].
  destruct (bb6d_slices _ _ _ _ _ _) as [v|]; [|discriminate].
  cbn [obind] in H. revert H. generalize (bb6d_inv_boost N (b6_parboost b) v) as w.
  intros w H. cbv zeta in H. injection H as <-. repeat split; reflexivity.
Qed.

Lemma kept_sc_coasting : forall s p p', track_sc_coasting N s p = Some p' -> kept_st p p'.
Proof. intros s p p' H. unfold track_sc_coasting in H. open H; kst. Qed.

Lemma kept_sc_qgauss : forall s p p', track_sc_qgauss N s p = Some p' -> kept_st p p'.
Proof. intros s p p' H. unfold track_sc_qgauss in H. open H; kst. Qed.

Lemma kept_sc_interpolated : forall s p p', track_sc_interpolated N s p = Some p' -> kept_st p p'.
Proof. intros s p p' H. unfold track_sc_interpolated in H. open H; kst. Qed.

(* the state a map leaves: unchanged or bitwise and with 0 / 1 *)
Definition state_step (p p' : particle T) : Prop :=
  p_state p' = p_state p \/ exists b : bool, p_state p' = Z.land (p_state p) (if b then 1 else 0).

Lemma land_0 : forall z, 0 = Z.land z 0. Proof. intro; now rewrite Z.land_0_r. Qed.

(* ---- output memory ---- *)
Definition shape (o : outsets T) : list nat := map (@List.length _) o.

Lemma upd_length : forall A (l : list A) i v, length (upd l i v) = length l.
Proof. induction l as [|x l IH]; destruct i; cbn; intros; auto; now rewrite IH. Qed.

Lemma upd_same : forall A (l : list A) i v, (i < length l)%nat -> nth_error (upd l i v) i = Some v.
Proof. induction l as [|x l IH]; destruct i; cbn; intros; try lia; auto. apply IH; lia. Qed.

Lemma upd_other : forall A (l : list A) i j v, i <> j -> nth_error (upd l i v) j = nth_error l j.
Proof. induction l as [|x l IH]; destruct i, j; cbn; intros; auto; try lia. Qed.

Lemma map_upd : forall A B (f : A -> B) l i v, map f (upd l i v) = upd (map f l) i (f v).
Proof. induction l as [|x l IH]; destruct i; cbn; intros; auto; now rewrite IH. Qed.

Lemma upd_id : forall A (l : list A) i v, nth_error l i = Some v -> upd l i v = l.
Proof. induction l as [|x l IH]; destruct i; cbn; intros; try discriminate; auto; [congruence|now rewrite IH]. Qed.

Lemma store_out_shape : forall o k i p o' st,
  store_out o k i p = Some (o', st) -> shape o' = shape o.
Proof.
  intros o k i p o' st H. unfold store_out in H.
  destruct (nth_error o k) as [l|] eqn:Hk; [|discriminate].
  destruct (i <? _); [|inversion H; auto]. destruct (0 <=? i); [|discriminate].
  inversion H; subst. unfold shape. rewrite map_upd, upd_length. apply upd_id.
  rewrite nth_error_map, Hk. reflexivity.
Qed.

Lemma shape_nth : forall o1 o2 k, shape o1 = shape o2 ->
  match nth_error o1 k, nth_error o2 k with
  | Some l1, Some l2 => length l1 = length l2
  | None, None => True
  | _, _ => False
  end.
Proof.
  intros o1 o2 k H.
  assert (nth_error (shape o1) k = nth_error (shape o2) k) as E by now rewrite H.
  unfold shape in E. rewrite !nth_error_map in E.
  destruct (nth_error o1 k), (nth_error o2 k); cbn in E; auto; congruence.
Qed.

(* ---- the dispatcher ---- *)
Definition is_monitor (be : element T) : bool :=
  match be with BMonitor _ => true | _ => false end.

(* elements that report a failure without marking the particle lost: maps that
   are disabled at build time, and TriCubData *)
Definition failing_silently (be : element T) : bool :=
  match be with
  | BTriCub _ => match c_tricub c with MDisabled => true | _ => false end
  | BTriCubData _ => match c_tricub c with MDisabled | MUndef => true | _ => false end
  | BBeamBeam4D _ => match c_bb4d c with MDisabled => true | _ => false end
  | BBeamBeam6D _ => match c_bb6d c with MDisabled => true | _ => false end
  | BSCCoasting _ | BSCQGauss _ => match c_sc c with MDisabled => true | _ => false end
  | _ => false
  end.

Lemma run_map_inv : forall m f p o p' o' st,
  (forall q q', f q = Some q' -> kept_st q q') ->
  run_map m f p o = Some (p', o', st) ->
  kept_st p p' /\ o' = o /\ (st <> 0 -> m = MDisabled).
Proof.
  intros m f p o p' o' st Hf H. destruct m; cbn in H.
  1,2: destruct (f p) as [q|] eqn:E; [|discriminate]; inversion H; subst; repeat split;
       try (apply Hf in E as (E & E')); try apply E; auto; try congruence.
  - inversion H; subst. repeat split; congruence.
  - inversion H; subst. repeat split.
Qed.

Lemma dispatch_inv : forall be p o p' o' st,
  dispatch N c be p o = Some (p', o', st) ->
  kept p p' /\ state_step p p' /\ shape o' = shape o /\
  (is_monitor be = false -> o' = o) /\
  (st <> 0 -> failing_silently be = false -> p_state p' = 0).
Proof.
  intros be p o p' o' st H. destruct be; cbn [dispatch] in H.
  - (* drift *)
    inversion H; subst; clear H. split; [|split; [|split; [|split]]]; auto; try congruence.
    + destruct (drift_check N c length); [eapply kept_trans; [apply kept_drift|apply kept_limit_global]|apply kept_drift].
    + destruct (drift_check N c length); [right|left; reflexivity].
      unfold track_limit_global; cbn.
      match goal with |- context [Z.land _ (Z.land (b2z ?a) (b2z ?b))] => exists (a && b)%bool;
        destruct a, b; cbn; reflexivity end.
  - inversion H; subst; clear H. split; [|split; [|split; [|split]]]; auto; try congruence.
    + destruct (drift_check N c length); [eapply kept_trans; [apply kept_drift_exact|apply kept_limit_global]|apply kept_drift_exact].
    + destruct (drift_check N c length); [right|left; reflexivity].
      unfold track_limit_global; cbn.
      match goal with |- context [Z.land _ (Z.land (b2z ?a) (b2z ?b))] => exists (a && b)%bool;
        destruct a, b; cbn; reflexivity end.
  - inversion H; subst; clear H. split; [apply kept_multipole|split; [|split; [|split]]]; auto; try congruence.
    left. unfold track_multipole.
    destruct (_ || _ || _ || _); [destruct (nltb N (nofZ N 0) length)|]; reflexivity.
  - inversion H; subst; clear H. split; [apply kept_rfmultipole|split; [|split; [|split]]]; auto; try congruence.
    left. unfold track_rfmultipole. destruct (fold_left _ _ _) as [[[[? ?] ?] ?] ?]. reflexivity.
  - inversion H; subst; clear H. split; [apply kept_cavity|split; [|split; [|split]]]; auto; try congruence.
    left; reflexivity.
  - inversion H; subst; clear H. split; [apply kept_xyshift|split; [|split; [|split]]]; auto; try congruence.
    left; reflexivity.
  - inversion H; subst; clear H. split; [apply kept_srotation|split; [|split; [|split]]]; auto; try congruence.
    left; reflexivity.
  - (* monitor *)
    unfold track_monitor in H. destruct (m_out m) as [k|].
    2:{ inversion H; subst. split; [apply kept_refl|split; [left; reflexivity|split; [|split]]]; auto; congruence. }
    destruct (0 <=? _) eqn:Hi.
    2:{ inversion H; subst. split; [apply kept_refl|split; [left; reflexivity|split; [|split]]]; auto; congruence. }
    destruct (store_out o k _ p) as [[o1 s1]|] eqn:Hso; [|discriminate].
    pose proof (store_out_shape _ _ _ _ _ _ Hso) as Hsh.
    destruct (s1 =? 0) eqn:Hs1; inversion H; subst; clear H.
    + apply Z.eqb_eq in Hs1; subst.
      split; [apply kept_refl|split; [left; reflexivity|split; [|split]]]; auto; cbn; congruence.
    + split; [kept_tac|split; [right; exists false; cbn; apply land_0|split; [|split]]]; auto; cbn; congruence.
  - inversion H; subst; clear H. split; [apply kept_limit_rect|split; [|split; [|split]]]; auto; try congruence.
    right. unfold track_limit_rect, update_state_if_not_lost, b2z; cbn. eexists; reflexivity.
  - inversion H; subst; clear H. split; [apply kept_limit_ellipse|split; [|split; [|split]]]; auto; try congruence.
    right. unfold track_limit_ellipse, update_state_if_not_lost, b2z; cbn. eexists; reflexivity.
  - inversion H; subst; clear H. split; [apply kept_limit_rect_ellipse|split; [|split; [|split]]]; auto; try congruence.
    right. unfold track_limit_rect_ellipse, update_state_if_not_lost, b2z; cbn. eexists; reflexivity.
  - inversion H; subst; clear H. split; [apply kept_dipedge|split; [|split; [|split]]]; auto; try congruence.
    left; reflexivity.
  - apply run_map_inv in H as ((Hk & Hs) & -> & Hm); [|apply kept_tricub].
    split; [|split; [left|split; [|split]]]; auto. intros Hst; cbn. rewrite (Hm Hst). discriminate.
  - destruct (c_tricub c) eqn:E; inversion H; subst; cbn; rewrite ?E;
      (split; [apply kept_refl|split; [left; reflexivity|split; [|split]]]); auto; try congruence.
  - apply run_map_inv in H as ((Hk & Hs) & -> & Hm); [|apply kept_bb4d].
    split; [|split; [left|split; [|split]]]; auto. intros Hst; cbn. rewrite (Hm Hst). discriminate.
  - apply run_map_inv in H as ((Hk & Hs) & -> & Hm); [|apply kept_bb6d].
    split; [|split; [left|split; [|split]]]; auto. intros Hst; cbn. rewrite (Hm Hst). discriminate.
  - apply run_map_inv in H as ((Hk & Hs) & -> & Hm); [|apply kept_sc_coasting].
    split; [|split; [left|split; [|split]]]; auto. intros Hst; cbn. rewrite (Hm Hst). discriminate.
  - apply run_map_inv in H as ((Hk & Hs) & -> & Hm); [|apply kept_sc_qgauss].
    split; [|split; [left|split; [|split]]]; auto. intros Hst; cbn. rewrite (Hm Hst). discriminate.
  - destruct (c_sc c) eqn:E.
    1,2: apply run_map_inv in H as ((Hk & Hs) & -> & Hm); [|apply kept_sc_interpolated];
      split; [|split; [left|split; [|split]]]; auto; intros Hst; specialize (Hm Hst); discriminate.
    1,2: inversion H; subst; (split; [kept_tac|split; [right; exists false; apply land_0|split; [|split]]]); auto.
  - inversion H; subst; clear H.
    split; [kept_tac|split; [right; exists false; apply land_0|split; [|split]]]; auto.
Qed.

Lemma dispatch_keeps_ids : keeps_ids (dispatch N c).
Proof.
  intros be p o p' o' st H. apply dispatch_inv in H as (Hk & _).
  destruct Hk as ((?&?&?&?&?&?&?&?)&(?&?)). repeat split; auto.
Qed.

Lemma dispatch_fail_lost : forall be p o p' o' st,
  failing_silently be = false ->
  dispatch N c be p o = Some (p', o', st) -> st <> 0 -> p_state p' <> 1.
Proof.
  intros be p o p' o' st Hf H Hst. apply dispatch_inv in H as (_&_&_&_&H).
  rewrite (H Hst Hf). discriminate.
Qed.

(* the effect on the particle does not depend on the contents of the output *)
Definition same_outcome (r1 r2 : option (particle T * outsets T * Z)) : Prop :=
  match r1, r2 with
  | Some (p1, o1, s1), Some (p2, o2, s2) => p1 = p2 /\ s1 = s2 /\ shape o1 = shape o2
  | None, None => True
  | _, _ => False
  end.

Lemma same_outcome_map : forall m f p o1 o2, shape o1 = shape o2 ->
  same_outcome (run_map m f p o1) (run_map m f p o2).
Proof. intros m f p o1 o2 H. destruct m; cbn; auto; destruct (f p); cbn; auto. Qed.

Lemma dispatch_shape : forall be p o1 o2, shape o1 = shape o2 ->
  same_outcome (dispatch N c be p o1) (dispatch N c be p o2).
Proof.
  intros be p o1 o2 H.
  destruct be; cbn [dispatch]; try (cbn; auto; fail); try (apply same_outcome_map; auto; fail).
  - unfold track_monitor. destruct (m_out m) as [k|]; [|cbn; auto].
    destruct (0 <=? _) eqn:Hi; [|cbn; auto].
    set (i := monitor_store_index m (p_at_turn p) (p_particle_id p)) in *.
    pose proof (shape_nth _ _ k H) as Hk.
    assert (forall o' st, store_out o1 k i p = Some (o', st) -> shape o' = shape o1) as S1
      by (intros; eapply store_out_shape; eauto).
    assert (forall o' st, store_out o2 k i p = Some (o', st) -> shape o' = shape o2) as S2
      by (intros; eapply store_out_shape; eauto).
    revert S1 S2. unfold store_out.
    destruct (nth_error o1 k) as [l1|] eqn:E1, (nth_error o2 k) as [l2|] eqn:E2; try contradiction; [|cbn; auto].
    rewrite Hk. destruct (i <? _); intros S1 S2.
    + rewrite Hi in *. cbn. split; [auto|split; [auto|]].
      rewrite (S1 _ _ eq_refl), (S2 _ _ eq_refl). auto.
    + cbn. auto.
  - destruct (c_tricub c); cbn; auto.
  - destruct (c_sc c); try (apply same_outcome_map; auto); cbn; auto.
Qed.

End D.
