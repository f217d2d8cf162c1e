(* Tracking through an optical lattice is a composition of symplectic maps. *)
From Coq Require Import ZArith Reals Lra Lia Bool List Psatz.
From Coquelicot Require Import Coquelicot.
From Verif Require Import Num Particle Energy Elements EbeConfig Track TrackSpec TrackProofs DispatchProofs
  MapsR OpticsSpec OpticsProofs MultipoleProofs SymplecticSpec SymplecticProofs.
Import List. Import ListNotations.
Local Open Scope R_scope.

(* attributes the transverse maps depend on *)
Definition consts (p : particle R) : R * R * R := (p_rpp p, p_delta p, p_chi p).

Definition emap (k : R * R * R) (be : element R) (u : phase) : phase :=
  let rpp := fst (fst k) in let delta := snd (fst k) in let chi := snd k in
  match be with
  | BDrift l => ((fst (fst u) + snd (fst u) * rpp * l, snd (fst u)),
                 (fst (snd u) + snd (snd u) * rpp * l, snd (snd u)))
  | BDriftExact l =>
    ((fst (fst u) + snd (fst u) * (l / sqrt ((delta + 1) * (delta + 1) - (snd (fst u) * snd (fst u) + snd (snd u) * snd (snd u)))), snd (fst u)),
     (fst (snd u) + snd (snd u) * (l / sqrt ((delta + 1) * (delta + 1) - (snd (fst u) * snd (fst u) + snd (snd u) * snd (snd u)))), snd (snd u)))
  | BMultipole order length hxl hyl ba =>
    ((fst (fst u), snd (fst u) + (- chi * Re (multipole_sum ba order (fst (fst u)) (fst (snd u)))
        + curvature_px hxl length (nth 0 ba 0) chi (fst (fst u)) delta)),
     (fst (snd u), snd (snd u) + (chi * Im (multipole_sum ba order (fst (fst u)) (fst (snd u)))
        + curvature_py hyl length (nth 1 ba 0) chi (fst (snd u)) delta)))
  | BDipoleEdge r21 r43 => ((fst (fst u), snd (fst u) + r21 * fst (fst u)),
                            (fst (snd u), snd (snd u) + r43 * fst (snd u)))
  | BXYShift dx dy => ((fst (fst u) + - dx, snd (fst u)), (fst (snd u) + - dy, snd (snd u)))
  | BSRotation c s => ((c * fst (fst u) + s * fst (snd u), c * snd (fst u) + s * snd (snd u)),
                       (- s * fst (fst u) + c * fst (snd u), - s * snd (fst u) + c * snd (snd u)))
  | _ => u
  end.

Definition forward (k : R * R * R) (be : element R) (u : phase) : Prop :=
  match be with
  | BDriftExact _ => snd (fst u) ^ 2 + snd (snd u) ^ 2 < (snd (fst k) + 1) ^ 2
  | _ => True
  end.

Lemma emap_symplectic : forall k be u, optical be -> forward k be u -> symplectic_at (emap k be) u.
Proof.
  intros k be u Ho Hf. destruct be; try contradiction Ho; unfold emap; cbv zeta.
  - apply drift_sym.
  - apply exact_sym. exact Hf.
  - apply multipole_sym.
  - apply shift_sym.
  - apply rotation_sym. exact Ho.
  - apply dipedge_sym.
Qed.

Section C.
Variable c : config R.

(* the aperture check after the element is passed *)
Definition pass (be : element R) (u : phase) : Prop :=
  match be with
  | BDrift l | BDriftExact l =>
      drift_check ROps c l = true -> Rabs (fst (fst u)) < c_x_limit c /\ Rabs (fst (snd u)) < c_y_limit c
  | _ => True
  end.

Lemma dispatch_optical : forall be q o, optical be -> p_state q = 1%Z ->
  exists q', dispatch ROps c be q o = Some (q', o, 0%Z) /\ phase_of q' = emap (consts q) be (phase_of q) /\
    consts q' = consts q /\ (pass be (phase_of q') <-> p_state q' = 1%Z).
Proof.
  intros be q o Ho Hs.
  assert (L : forall r l, p_state r = 1%Z ->
     phase_of (if drift_check ROps c l then track_limit_global ROps c r else r) = phase_of r /\
     consts (if drift_check ROps c l then track_limit_global ROps c r else r) = consts r /\
     ((drift_check ROps c l = true -> Rabs (p_x r) < c_x_limit c /\ Rabs (p_y r) < c_y_limit c) <->
      p_state (if drift_check ROps c l then track_limit_global ROps c r else r) = 1%Z)).
  { intros r l Hr. destruct (drift_check ROps c l).
    - split; [reflexivity|]. split; [reflexivity|]. rewrite (limit_global_iff c r Hr). unfold in_box. tauto.
    - split; [reflexivity|]. split; [reflexivity|]. split; [auto|intros _ H; discriminate]. }
  destruct be; try contradiction Ho; cbn [dispatch].
  - destruct (L (track_drift ROps length q) length Hs) as (L1 & L2 & L3).
    eexists. split; [reflexivity|]. rewrite L1, L2. split; [reflexivity|]. split; [reflexivity|]. exact L3.
  - destruct (L (track_drift_exact ROps length q) length Hs) as (L1 & L2 & L3).
    eexists. split; [reflexivity|]. rewrite L1, L2. split; [reflexivity|]. split; [reflexivity|]. exact L3.
  - eexists. split; [reflexivity|]. rewrite multipole_map. split; [reflexivity|]. split; [reflexivity|].
    split; intros _; [exact Hs|exact Logic.I].
  - eexists. split; [reflexivity|]. split; [reflexivity|]. split; [reflexivity|].
    split; intros _; [exact Hs|exact Logic.I].
  - eexists. split; [reflexivity|]. split; [reflexivity|]. split; [reflexivity|].
    split; intros _; [exact Hs|exact Logic.I].
  - eexists. split; [reflexivity|]. split; [reflexivity|]. split; [reflexivity|].
    split; intros _; [exact Hs|exact Logic.I].
Qed.

Lemma pass_open : forall be u, pass be u -> locally u (pass be).
Proof.
  intros be u H.
  assert (B : forall l, (drift_check ROps c l = true -> Rabs (fst (fst u)) < c_x_limit c /\ Rabs (fst (snd u)) < c_y_limit c) ->
    locally u (fun w : phase => drift_check ROps c l = true -> Rabs (fst (fst w)) < c_x_limit c /\ Rabs (fst (snd w)) < c_y_limit c)).
  { intros l Hl. destruct (drift_check ROps c l).
    - destruct (Hl eq_refl) as (H1 & H2).
      assert (O : forall (f : phase -> R) lim, continuous f u -> Rabs (f u) < lim -> locally u (fun w => Rabs (f w) < lim)).
      { intros f lim Hc Hlt. apply (Hc (fun z => Rabs z < lim)).
        assert (Ho : open (fun z : R => Rabs z < lim)).
        { apply (open_ext (fun z : R => - lim < z /\ z < lim)).
          - intros z. split; intros Hz; [apply Rabs_def1; tauto|apply Rabs_def2 in Hz; tauto].
          - apply open_and; [apply open_gt|apply open_lt]. }
        apply Ho. exact Hlt. }
      assert (Cx : continuous (fun w : phase => fst (fst w)) u)
        by (apply (continuous_comp fst fst); apply continuous_fst).
      assert (Cy : continuous (fun w : phase => fst (snd w)) u)
        by (apply (continuous_comp snd fst); [apply continuous_snd|apply continuous_fst]).
      pose proof (O _ _ Cx H1) as A1. pose proof (O _ _ Cy H2) as A2.
      generalize (filter_and _ _ A1 A2). apply filter_imp. intros w Hw _. exact Hw.
    - apply filter_forall. intros w Hw. discriminate. }
  destruct be; cbn [pass] in *; try (apply filter_forall; intros; exact Logic.I); apply B; exact H.
Qed.

Fixpoint run (k : R * R * R) (es : list (element R)) (u : phase) : phase :=
  match es with [] => u | be :: r => run k r (emap k be u) end.
Fixpoint survives (k : R * R * R) (es : list (element R)) (u : phase) : Prop :=
  match es with [] => True | be :: r => pass be (emap k be u) /\ survives k r (emap k be u) end.
Fixpoint forwards (k : R * R * R) (es : list (element R)) (u : phase) : Prop :=
  match es with [] => True | be :: r => forward k be u /\ forwards k r (emap k be u) end.

Lemma run_symplectic : forall k es u, Forall optical es -> forwards k es u -> survives k es u ->
  symplectic_at (run k es) u /\ locally u (survives k es).
Proof.
  intros k es. induction es as [|be r IH]; intros u Ho Hf Hs.
  - split; [apply symplectic_id|apply filter_forall; intros; exact Logic.I].
  - inversion Ho as [|? ? Hb Hr]; subst. destruct Hf as (Hf1 & Hf2), Hs as (Hs1 & Hs2).
    destruct (IH _ Hr Hf2 Hs2) as (A & B).
    pose proof (emap_symplectic k be u Hb Hf1) as E. split.
    + exact (symplectic_comp _ _ _ E A).
    + pose proof (symplectic_continuous _ _ E) as Hc.
      assert (P1 : locally u (fun w : phase => pass be (emap k be w))) by exact (Hc _ (pass_open be _ Hs1)).
      assert (P2 : locally u (fun w : phase => survives k r (emap k be w))) by exact (Hc _ B).
      generalize (filter_and _ _ P1 P2). apply filter_imp. intros w Hw. exact Hw.
Qed.

Lemma survives_app : forall k a b u, survives k (a ++ b) u <-> survives k a u /\ survives k b (run k a u).
Proof. intros k a. induction a; intros b u; cbn [app survives run]; [tauto|]. rewrite IHa. tauto. Qed.
Lemma forwards_app : forall k a b u, forwards k (a ++ b) u <-> forwards k a u /\ forwards k b (run k a u).
Proof. intros k a. induction a; intros b u; cbn [app forwards run]; [tauto|]. rewrite IHa. tauto. Qed.
Lemma run_app : forall k a b u, run k (a ++ b) u = run k b (run k a u).
Proof. intros k a. induction a; intros; cbn [app run]; auto. Qed.

(* one turn *)
Notation tp := (turn_pass (dispatch ROps c)).

Lemma turn_runs : forall es q o s, Forall optical es -> p_state q = 1%Z -> survives (consts q) es (phase_of q) ->
  exists q' s', tp es q o s = Ok (q', o, s', true) /\ phase_of q' = run (consts q) es (phase_of q) /\
    consts q' = consts q /\ p_state q' = 1%Z.
Proof.
  induction es as [|be r IH]; intros q o s Ho Hs Hv.
  - exists q, s. auto.
  - inversion Ho as [|? ? Hb Hr]; subst. destruct Hv as (Hp & Hv).
    destruct (dispatch_optical be q o Hb Hs) as (q1 & D1 & D2 & D3 & D4).
    assert (Hs1 : p_state q1 = 1%Z) by (apply D4; rewrite D2; exact Hp).
    cbn [turn_pass]. unfold call_disp. rewrite D1. cbn [bind].
    unfold is_not_lost at 1. rewrite Hs1. cbn [Z.eqb andb].
    destruct (IH (incr_at_element q1) o 0%Z Hr) as (q' & s' & E1 & E2 & E3 & E4).
    + exact Hs1.
    + change (consts (incr_at_element q1)) with (consts q1). change (phase_of (incr_at_element q1)) with (phase_of q1).
      rewrite D2, D3. exact Hv.
    + change (consts (incr_at_element q1)) with (consts q1) in *. change (phase_of (incr_at_element q1)) with (phase_of q1) in *.
      exists q', s'. split; [exact E1|]. cbn [run]. rewrite E2, E3, D2, D3. auto.
Qed.

Lemma turn_survives : forall es q o s q' o' s', Forall optical es -> p_state q = 1%Z ->
  tp es q o s = Ok (q', o', s', true) -> survives (consts q) es (phase_of q).
Proof.
  induction es as [|be r IH]; intros q o s q' o' s' Ho Hs H; [exact Logic.I|].
  inversion Ho as [|? ? Hb Hr]; subst.
  destruct (dispatch_optical be q o Hb Hs) as (q1 & D1 & D2 & D3 & D4).
  cbn [turn_pass] in H. unfold call_disp in H. rewrite D1 in H. cbn [bind] in H.
  destruct ((0 =? 0)%Z && is_not_lost q1) eqn:Hc; [|discriminate].
  apply andb_true_iff in Hc as (_ & Hc). unfold is_not_lost in Hc. apply Z.eqb_eq in Hc.
  cbn [survives]. rewrite <- D2. split; [apply D4; exact Hc|].
  rewrite <- D3. apply (IH (incr_at_element q1) o 0%Z q' o' s' Hr Hc H).
Qed.

(* a whole number of turns *)
Fixpoint turns (lattice : list (element R)) (n : nat) : list (element R) :=
  match n with O => [] | S m => lattice ++ turns lattice m end.

Lemma turns_optical : forall lattice n, Forall optical lattice -> Forall optical (turns lattice n).
Proof. induction n; intros; cbn [turns]; auto. apply Forall_app. auto. Qed.

Notation rt := (run_turns R (element R) (outsets R) 0 (dispatch ROps c)).

Lemma turns_run : forall lattice start n q o, Forall optical lattice -> p_state q = 1%Z ->
  survives (consts q) (turns lattice n) (phase_of q) ->
  exists q', rt lattice start n q o = Ok (q', o, 0%Z) /\
    phase_of q' = run (consts q) (turns lattice n) (phase_of q) /\ p_state q' = 1%Z.
Proof.
  intros lattice start n. induction n as [|n IH]; intros q o Ho Hs Hv.
  - exists q. auto.
  - cbn [turns] in Hv. apply survives_app in Hv as (Hv1 & Hv2).
    destruct (turn_runs lattice q o 0%Z Ho Hs Hv1) as (q1 & s1 & E1 & E2 & E3 & E4).
    cbn [run_turns]. rewrite E1. cbn [bind].
    set (q2 := end_of_turn 0 start q1).
    assert (C2 : consts q2 = consts q) by (rewrite <- E3; reflexivity).
    assert (P2 : phase_of q2 = run (consts q) lattice (phase_of q)) by (rewrite <- E2; reflexivity).
    destruct (IH q2 o Ho) as (q' & F1 & F2 & F3).
    + exact E4.
    + rewrite C2, P2. exact Hv2.
    + exists q'. split; [exact F1|]. split; [|exact F3]. cbn [turns]. rewrite run_app, F2, C2, P2. reflexivity.
Qed.

Lemma turns_survives : forall lattice start n q o q' o' s, Forall optical lattice -> p_state q = 1%Z ->
  rt lattice start n q o = Ok (q', o', s) -> p_state q' = 1%Z ->
  survives (consts q) (turns lattice n) (phase_of q).
Proof.
  intros lattice start n. induction n as [|n IH]; intros q o q' o' s Ho Hs H Hs'; [exact Logic.I|].
  cbn [turns]. apply survives_app. cbn [run_turns] in H.
  destruct (tp lattice q o 0%Z) as [[[[q1 o1] s1] cont]| |] eqn:E; try discriminate. cbn [bind] in H.
  destruct cont; [|inversion H; subst; discriminate Hs'].
  pose proof (turn_survives lattice q o 0%Z q1 o1 s1 Ho Hs E) as Hv. split; [exact Hv|].
  destruct (turn_runs lattice q o 0%Z Ho Hs Hv) as (q1' & s1' & E1 & E2 & E3 & E4).
  rewrite E in E1. assert (Eq : q1' = q1) by congruence. subst q1'.
  set (q2 := end_of_turn 0 start q1) in *.
  assert (C2 : consts q2 = consts q) by (rewrite <- E3; reflexivity).
  assert (P2 : phase_of q2 = run (consts q) lattice (phase_of q)) by (rewrite <- E2; reflexivity).
  rewrite <- C2 at 1. rewrite <- P2. eapply IH; eauto.
Qed.

(* moving forward along the trajectory *)
Section Traj.
Variables (lattice : list (element R)) (p0 : particle R) (o0 : outsets R).
Notation arr := (arrives 0 (dispatch ROps c) lattice p0 o0).
Hypothesis Ho : Forall optical lattice.
Hypothesis Hs0 : p_state p0 = 1%Z.
Variable last : Z.
Hypothesis Hfwd : forall t j q o be, (t < last)%Z -> arr t j q o -> nth_error lattice j = Some be -> moves_forward be q.

Lemma traj_turn : forall rest j t q, (t < last)%Z -> arr t j q o0 -> p_state q = 1%Z -> skipn j lattice = rest ->
  (j + length rest = length lattice)%nat ->
  survives (consts q) rest (phase_of q) ->
  forwards (consts q) rest (phase_of q) /\
  exists q', arr t (length lattice) q' o0 /\ p_state q' = 1%Z /\ consts q' = consts q /\
    phase_of q' = run (consts q) rest (phase_of q).
Proof.
  induction rest as [|be r IH]; intros j t q Ht Ha Hs Hk Hl Hv.
  - split; [exact Logic.I|]. exists q. cbn [length] in Hl. rewrite Nat.add_0_r in Hl. subst j. auto.
  - destruct (skipn_S_cons _ _ _ _ _ Hk) as (Hn & Hk').
    assert (Hb : optical be) by (eapply Forall_forall; [exact Ho|eapply nth_error_In; eauto]).
    destruct Hv as (Hp & Hv).
    destruct (dispatch_optical be q o0 Hb Hs) as (q1 & D1 & D2 & D3 & D4).
    assert (Hs1 : p_state q1 = 1%Z) by (apply D4; rewrite D2; exact Hp).
    pose proof (arrives_next Ha Hn D1 Hs1) as Ha1.
    set (q2 := set_at_element_id (p_at_element_id q1 + 1) q1) in *.
    assert (C2 : consts q2 = consts q) by (rewrite <- D3; reflexivity).
    assert (P2 : phase_of q2 = emap (consts q) be (phase_of q)) by (rewrite <- D2; reflexivity).
    cbn [length] in Hl.
    destruct (IH (S j) t q2 Ht Ha1 Hs1 Hk' ltac:(lia)) as (F & q' & G1 & G2 & G3 & G4).
    + rewrite C2, P2. exact Hv.
    + rewrite C2, P2 in *. split.
      * cbn [forwards]. split; [|exact F].
        pose proof (Hfwd _ _ _ _ _ Ht Ha Hn) as Hm. destruct be; try exact Logic.I.
        cbn [forward moves_forward] in *. unfold consts, phase_of. cbn [fst snd].
        replace (p_delta q + 1) with (1 + p_delta q) by ring. exact Hm.
      * exists q'. auto.
Qed.

Lemma traj_turns : forall n t q, (t + Z.of_nat n <= last)%Z -> arr t 0 q o0 -> p_state q = 1%Z ->
  survives (consts q) (turns lattice n) (phase_of q) -> forwards (consts q) (turns lattice n) (phase_of q).
Proof.
  induction n as [|n IH]; intros t q Ht Ha Hs Hv; [exact Logic.I|].
  cbn [turns] in *. apply survives_app in Hv as (Hv1 & Hv2). apply forwards_app.
  destruct (traj_turn lattice 0 t q ltac:(lia) Ha Hs eq_refl eq_refl Hv1) as (F & q' & G1 & G2 & G3 & G4).
  split; [exact F|].
  pose proof (arrives_turn G1) as Ha2. set (q2 := set_s 0 _) in Ha2.
  assert (C2 : consts q2 = consts q) by (rewrite <- G3; reflexivity).
  assert (P2 : phase_of q2 = run (consts q) lattice (phase_of q)) by (rewrite <- G4; reflexivity).
  rewrite <- C2 at 1. rewrite <- P2. apply (IH (t + 1)%Z q2 ltac:(lia) Ha2 G2). rewrite C2, P2. exact Hv2.
Qed.
End Traj.

Lemma with_phase_of : forall w p, phase_of (with_phase w p) = w.
Proof. intros [[x px] [y py]] p. reflexivity. Qed.
Lemma with_phase_consts : forall w p, consts (with_phase w p) = consts p.
Proof. intros [[x px] [y py]] p. reflexivity. Qed.

Lemma tracked_symplectic : forall lattice n p outs v q outs' st,
  Forall optical lattice -> p_state p = 1%Z ->
  until_turn ROps c lattice n (with_phase v p) outs = Ok (q, outs', st) -> p_state q = 1%Z ->
  (forall t j q o be, (t < n)%Z -> arrives 0 (dispatch ROps c) lattice (with_phase v p) outs t j q o ->
     nth_error lattice j = Some be -> moves_forward be q) ->
  symplectic_at (tracked c lattice n p outs) v.
Proof.
  intros lattice n p outs v q outs' st Ho Hs H Hq Hf.
  destruct lattice as [|be0 rest0] eqn:El.
  { apply (symplectic_ext_loc (fun u => u)); [|apply symplectic_id].
    apply filter_forall. intros w. unfold tracked. cbn. now rewrite with_phase_of. }
  rewrite <- El in *. assert (Hne : lattice <> []) by (rewrite El; discriminate). clear El be0 rest0.
  set (N0 := Z.to_nat (n - p_at_turn p)).
  assert (Hids : keeps_ids (dispatch ROps c)) by apply dispatch_keeps_ids.
  assert (U : forall w, until_turn ROps c lattice n (with_phase w p) outs = rt lattice (p_at_element_id p) N0 (with_phase w p) outs).
  { intros w. unfold until_turn. rewrite (track_run _ _ _ _ _ Hids lattice n _ _ Hne).
    replace (is_not_lost (with_phase w p)) with true; [reflexivity|]. unfold is_not_lost.
    change (p_state (with_phase w p)) with (p_state p). now rewrite Hs. }
  rewrite U in H.
  pose proof (turns_survives lattice _ N0 _ _ _ _ _ Ho (Hs : p_state (with_phase v p) = 1%Z) H Hq) as Hv.
  assert (Hfw : forwards (consts (with_phase v p)) (turns lattice N0) (phase_of (with_phase v p))).
  { destruct (Z_le_gt_dec (p_at_turn p) n) as [Hle|Hgt].
    - apply (traj_turns lattice (with_phase v p) outs Ho n Hf N0 (p_at_turn (with_phase v p))
        (with_phase v p)); [|apply arrives_start|exact Hs|exact Hv].
      change (p_at_turn (with_phase v p)) with (p_at_turn p). unfold N0. lia.
    - replace N0 with O by (unfold N0; lia). exact Logic.I. }
  rewrite with_phase_of, with_phase_consts in Hv, Hfw.
  destruct (run_symplectic (consts p) (turns lattice N0) v (turns_optical _ _ Ho) Hfw Hv) as (A & B).
  apply (symplectic_ext_loc (run (consts p) (turns lattice N0))); [|exact A].
  revert B. apply filter_imp. intros w Hw. unfold tracked. rewrite U.
  destruct (turns_run lattice (p_at_element_id p) N0 (with_phase w p) outs Ho Hs) as (q' & E1 & E2 & _).
  - rewrite with_phase_of, with_phase_consts. exact Hw.
  - rewrite E1, E2, with_phase_of, with_phase_consts. reflexivity.
Qed.
End C.
