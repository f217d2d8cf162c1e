(* Element-by-element tracking follows plain tracking and records it. *)
From Coq Require Import ZArith List Bool Lia.
From Verif Require Import Num Particle Elements EbeConfig EbeSpec EbeProofs Track TrackSpec TrackProofs
  DispatchProofs MonitorSpec Records MonitorRun.
Import ListNotations.
Local Open Scope Z_scope.

Section EbeRun.
Context {T : Type} (N : NumOps T) (c : config T).
Variables (cfg : ebe_config) (k : nat) (outs0 : outsets T) (l0 : list (particle T)).
Hypothesis Hset : nth_error outs0 k = Some l0.
Notation nn := (Z.of_nat (length l0)).
Notation zero := (nzero N).
Notation disp := (dispatch N c).

(* where the particle's record goes *)
Definition rec_index (p : particle T) : Z :=
  ebe_store_index cfg (p_particle_id p) (p_at_element_id p) (p_at_turn p).

(* output after recording the particle *)
Definition recorded (p : particle T) (o : outsets T) : outsets T :=
  if (0 <=? rec_index p) && (rec_index p <? nn)
  then match store_out o k (rec_index p) p with Some (o1, _) => o1 | None => o end else o.

(* record, then track through the element *)
Definition rdisp (be : element T) (p : particle T) (o : outsets T) := disp be p (recorded p o).

Lemma store_ok : forall p o, shape o = shape outs0 -> 0 <= rec_index p < nn ->
  store_out o k (rec_index p) p = Some (recorded p o, 0) /\ slot (recorded p o) k (rec_index p) = Some p.
Proof.
  intros p o Ho Hi. pose proof (shape_nth _ _ k Ho) as Hn. rewrite Hset in Hn.
  destruct (nth_error o k) as [l'|] eqn:Hk'; [|contradiction].
  destruct (store_out_ok o k (rec_index p) p l' Hk' ltac:(lia)) as (o' & E & Hs).
  unfold recorded. replace (0 <=? rec_index p) with true by (symmetry; apply Z.leb_le; lia).
  replace (rec_index p <? nn) with true by (symmetry; apply Z.ltb_lt; lia). cbn [andb]. rewrite E. auto.
Qed.

Lemma recorded_shape : forall p o, shape (recorded p o) = shape o.
Proof.
  intros p o. unfold recorded. destruct (_ && _); auto.
  destruct (store_out o k (rec_index p) p) as [[o1 st]|] eqn:E; auto. eapply store_out_shape; eauto.
Qed.

Lemma recorded_frame : forall p o k' i', ~ (k' = k /\ i' = rec_index p) ->
  slot (recorded p o) k' i' = slot o k' i'.
Proof.
  intros p o k' i' H. unfold recorded. destruct (_ && _); auto.
  destruct (store_out o k (rec_index p) p) as [[o1 st]|] eqn:E; auto.
  eapply store_out_frame; eauto.
Qed.

Lemma recorded_other : forall p o k', k' <> k -> nth_error (recorded p o) k' = nth_error o k'.
Proof.
  intros p o k' H. unfold recorded. destruct (_ && _); auto.
  destruct (store_out o k (rec_index p) p) as [[o1 st]|] eqn:E; auto.
  eapply store_out_other; eauto.
Qed.

Lemma rdisp_inv : forall be p o p' o' st, rdisp be p o = Some (p', o', st) ->
  kept p p' /\ state_step p p' /\ shape o' = shape o /\
  (st <> 0 -> failing_silently c be = false -> p_state p' = 0).
Proof.
  intros be p o p' o' st H. unfold rdisp in H. apply dispatch_inv in H as (H1 & H2 & H3 & _ & H5).
  rewrite recorded_shape in H3. auto.
Qed.

Lemma rdisp_keeps_ids : keeps_ids rdisp.
Proof. intros be p o p' o' st H. unfold rdisp in H. eapply dispatch_keeps_ids; eauto. Qed.

Lemma step_state : forall (p p' : particle T), p_state p = 1 -> state_step p p' -> p_state p' = 1 \/ p_state p' = 0.
Proof.
  intros p p' Hp [E|(b & E)]; [left; congruence|]. rewrite Hp in E. destruct b; cbn in E; auto.
Qed.

Lemma mark_stopped : forall p : particle T, p_state p = 0 -> mark_as_lost p = p.
Proof. intros p H. destruct p; cbn in *. subst. reflexivity. Qed.

(* one turn *)
Lemma ebe_pass_turn : forall pid se n bes ae t p o s, bes <> [] -> shape o = shape outs0 ->
  p_particle_id p = pid -> p_at_element_id p = ae -> p_at_turn p = t ->
  ebe_pass zero disp (@store_out T) cfg k nn pid se n bes ae t p o s =
  bind (turn_pass rdisp bes p o s) (fun r => let '(p1, o1, s1, b) := r in
    if b then Ok (end_of_turn zero se p1, o1, s1, t + 1 <? n, t + 1) else Ok (p1, o1, s1, false, t)).
Proof.
  intros pid se n bes. induction bes as [|be bes IH]; [congruence|].
  intros ae t p o s _ Ho Hp He Ht. cbn [ebe_pass turn_pass]. cbv zeta.
  assert (Hidx : ebe_store_index cfg pid ae t = rec_index p) by (unfold rec_index; congruence).
  rewrite Hidx.
  assert (Hrec : (if (0 <=? rec_index p) && (rec_index p <? nn)
      then match store_out o k (rec_index p) p with Some (o0, st) => Ok (o0, st =? 0) | None => Undef end
      else Ok (o, true)) = Ok (recorded p o, true)).
  { destruct ((0 <=? rec_index p) && (rec_index p <? nn)) eqn:Eb.
    - apply andb_prop in Eb as (E1 & E2). apply Z.leb_le in E1. apply Z.ltb_lt in E2.
      rewrite (proj1 (store_ok p o Ho (conj E1 E2))). reflexivity.
    - unfold recorded. rewrite Eb. reflexivity. }
  rewrite Hrec. cbn [bind]. unfold call_disp, rdisp.
  destruct (disp be p (recorded p o)) as [[[p1 o1] s1]|] eqn:Hd; cbn [bind]; [|reflexivity].
  assert (Hd' : rdisp be p o = Some (p1, o1, s1)) by exact Hd.
  destruct (rdisp_keeps_ids _ _ _ _ _ _ Hd') as (K1 & K2 & K3).
  destruct (rdisp_inv _ _ _ _ _ _ Hd') as (_ & _ & Hsh & _).
  destruct ((s1 =? 0) && is_not_lost p1); [|reflexivity].
  destruct bes as [|be' bes'].
  - cbn [turn_pass bind]. reflexivity.
  - rewrite IH; [reflexivity|discriminate|congruence| | |].
    + cbn. congruence.
    + cbn. congruence.
    + cbn. congruence.
Qed.

Lemma ebe_loop_until : forall fuel pid se n bes t p o s, bes <> [] ->
  Forall (fun be => failing_silently c be = false) bes ->
  shape o = shape outs0 -> p_particle_id p = pid -> p_at_element_id p = se -> p_at_turn p = t -> p_state p = 1 ->
  t < n ->
  ebe_loop zero disp (@store_out T) fuel cfg k nn pid se n bes t p o s =
  until_turn_loop zero rdisp fuel bes se n p o s.
Proof.
  induction fuel as [|f IH]; intros pid se n bes t p o s Hb Hfail Ho Hp He Ht Hs Hlt; [reflexivity|].
  cbn [ebe_loop until_turn_loop]. rewrite (ebe_pass_turn pid se n bes se t p o s Hb Ho Hp He Ht).
  destruct (turn_pass rdisp bes p o s) as [[[[p1 o1] s1] b]| |] eqn:Htp; cbn [bind]; auto.
  assert (Hstep : forall bes p o s p1 o1 s1 b, Forall (fun be => failing_silently c be = false) bes ->
    p_state p = 1 -> turn_pass rdisp bes p o s = Ok (p1, o1, s1, b) ->
    shape o1 = shape o /\ (if b then p_state p1 = 1 else p_state p1 = 0)).
  { clear. induction bes as [|be bes IH]; intros p o s p1 o1 s1 b Hf Hs H; cbn [turn_pass] in H.
    - assert (p1 = p /\ o1 = o /\ b = true) as (-> & -> & ->) by (repeat split; congruence). auto.
    - inversion Hf as [|? ? Hbe Hbes]; subst.
      unfold call_disp in H. destruct (rdisp be p o) as [[[p2 o2] s2]|] eqn:Hd; cbn [bind] in H; [|discriminate].
      destruct (rdisp_inv _ _ _ _ _ _ Hd) as (Hk & Hst & Hsh & Hz).
      destruct ((s2 =? 0) && is_not_lost p2) eqn:Ec.
      + apply andb_prop in Ec as (_ & Ec). apply Z.eqb_eq in Ec.
        apply IH in H; auto. destruct H as (A & B). split; [congruence|auto].
      + assert (p1 = p2 /\ o1 = o2 /\ s1 = s2 /\ b = false) as (-> & -> & -> & ->) by (repeat split; congruence).
        split; auto. destruct (Z.eq_dec s2 0) as [->|Hn]; [|auto].
        cbn [Z.eqb andb] in Ec. destruct (step_state _ _ Hs Hst) as [E|E]; auto.
        unfold is_not_lost in Ec. rewrite E in Ec. discriminate. }
  destruct (Hstep _ _ _ _ _ _ _ _ Hfail Hs Htp) as (Hsh & Hst).
  destruct b.
  - apply (turn_pass_cont _ _ _ _ rdisp_keeps_ids) in Htp as (K1 & K2 & _).
    replace (p_at_turn (end_of_turn zero se p1)) with (t + 1) by (cbn; lia).
    destruct (t + 1 <? n) eqn:En; [|reflexivity]. apply Z.ltb_lt in En.
    apply IH; auto.
    + congruence.
    + cbn. congruence.
    + cbn. lia.
  - rewrite mark_stopped by auto. reflexivity.
Qed.

(* conditions on the particle: the loop is entered *)
Definition tracked (p : particle T) : Prop :=
  p_state p = 1 /\ 0 <= p_particle_id p /\ 0 <= p_at_element_id p /\ 0 <= p_at_turn p.

Lemma ebe_until : forall lattice n p, lattice <> [] ->
  Forall (fun be => failing_silently c be = false) lattice -> tracked p -> e_out cfg = Some k ->
  elem_by_elem N c cfg lattice n p outs0 = track_until_turn zero rdisp lattice n p outs0.
Proof.
  intros lattice n p Hne Hf (Hs & Hp & He & Ht) Ek. unfold elem_by_elem, track_ebe. rewrite Ek.
  unfold outs_num. rewrite Hset. unfold track_until_turn.
  assert (Hnl : is_not_lost p = true) by (unfold is_not_lost; rewrite Hs; reflexivity).
  destruct lattice as [|be rest]; [congruence|].
  replace (0 <=? p_at_turn p) with true by (symmetry; apply Z.leb_le; lia).
  replace (0 <=? p_at_element_id p) with true by (symmetry; apply Z.leb_le; lia).
  replace (0 <=? p_particle_id p) with true by (symmetry; apply Z.leb_le; lia).
  rewrite Hnl. cbn [andb Z.eqb]. rewrite !andb_true_r.
  destruct (p_at_turn p <? n) eqn:En; [|reflexivity]. apply Z.ltb_lt in En.
  apply ebe_loop_until; auto.
Qed.

(* ---------------- the dynamics is the same ---------------- *)

(* outputs that differ in the element-by-element set only *)
Definition same_but (o1 o2 : outsets T) : Prop :=
  shape o1 = shape o2 /\ forall k', k' <> k -> nth_error o1 k' = nth_error o2 k'.

Lemma same_but_refl : forall o, same_but o o. Proof. split; auto. Qed.

Lemma same_but_recorded : forall p o1 o2, same_but o1 o2 -> same_but (recorded p o1) o2.
Proof.
  intros p o1 o2 (H1 & H2). split; [rewrite recorded_shape; auto|].
  intros k' Hk. rewrite recorded_other by auto. auto.
Qed.

Lemma disp_same_but : forall be p o1 o2 p1 o1' s1, not_set k be -> same_but o1 o2 ->
  disp be p o1 = Some (p1, o1', s1) ->
  exists o2', disp be p o2 = Some (p1, o2', s1) /\ same_but o1' o2'.
Proof.
  intros be p o1 o2 p1 o1' s1 Hns (Hsh & Ho) H.
  pose proof (dispatch_shape N c be p o1 o2 Hsh) as Hso. rewrite H in Hso.
  destruct (disp be p o2) as [[[p2 o2'] s2]|] eqn:H2; [|contradiction].
  destruct Hso as (-> & -> & Hsh'). exists o2'. split; auto. split; auto.
  intros k' Hk'. destruct (is_monitor be) eqn:Hb.
  - destruct be; try discriminate. cbn [dispatch] in H, H2. unfold track_monitor in H, H2. cbn in Hns.
    destruct (m_out m) as [k1|] eqn:Hm.
    2:{ assert (o1' = o1 /\ o2' = o2) as (-> & ->) by (split; congruence). auto. }
    destruct (0 <=? monitor_store_index m (p_at_turn p) (p_particle_id p)) eqn:Ei.
    2:{ assert (o1' = o1 /\ o2' = o2) as (-> & ->) by (split; congruence). auto. }
    assert (Hk1 : nth_error o1 k1 = nth_error o2 k1) by (apply Ho; congruence).
    unfold store_out in H, H2. rewrite Hk1, Ei in H. rewrite Ei in H2.
    destruct (nth_error o2 k1) as [l|] eqn:El; [|discriminate].
    destruct (_ <? _) in H, H2.
    + cbn [Z.eqb] in H, H2.
      assert (o1' = upd o1 k1 (upd l (Z.to_nat (monitor_store_index m (p_at_turn p) (p_particle_id p))) p)) as -> by congruence.
      assert (o2' = upd o2 k1 (upd l (Z.to_nat (monitor_store_index m (p_at_turn p) (p_particle_id p))) p)) as -> by congruence.
      destruct (Nat.eq_dec k' k1) as [->|E].
      * rewrite !upd_same; auto; apply nth_error_Some; congruence.
      * rewrite !upd_other by auto. auto.
    + change (-1 =? 0) with false in H, H2. cbv iota in H, H2.
      assert (o1' = o1 /\ o2' = o2) as (-> & ->) by (split; congruence). auto.
  - apply dispatch_inv in H as (_ & _ & _ & Hf & _). apply dispatch_inv in H2 as (_ & _ & _ & Hf2 & _).
    rewrite (Hf Hb), (Hf2 Hb). auto.
Qed.

Lemma disp_same_undef : forall be p o1 o2, same_but o1 o2 -> disp be p o1 = None -> disp be p o2 = None.
Proof.
  intros be p o1 o2 (Hsh & _) H. pose proof (dispatch_shape N c be p o1 o2 Hsh) as Hso. rewrite H in Hso.
  destruct (disp be p o2) as [[[? ?] ?]|]; [contradiction|reflexivity].
Qed.

(* results of the two ways of tracking *)
Definition same_result (r1 r2 : res (particle T * outsets T * Z)) : Prop :=
  match r1, r2 with
  | Ok (p1, o1, s1), Ok (p2, o2, s2) => p1 = p2 /\ s1 = s2 /\ same_but o1 o2
  | Undef, Undef => True
  | NoFuel, NoFuel => True
  | _, _ => False
  end.

Lemma same_pass : forall bes p o1 o2 s, Forall (not_set k) bes -> same_but o1 o2 ->
  match turn_pass rdisp bes p o1 s, turn_pass disp bes p o2 s with
  | Ok (p1, x1, s1, b1), Ok (p2, x2, s2, b2) => p1 = p2 /\ s1 = s2 /\ b1 = b2 /\ same_but x1 x2
  | Undef, Undef => True
  | _, _ => False
  end.
Proof.
  induction bes as [|be bes IH]; intros p o1 o2 s Hns Ho; cbn [turn_pass]; [auto|].
  inversion Hns as [|? ? Hbe Hbes]; subst. unfold call_disp, rdisp.
  pose proof (same_but_recorded p _ _ Ho) as Hr.
  destruct (disp be p (recorded p o1)) as [[[p1 x1] s1]|] eqn:Hd.
  - destruct (disp_same_but _ _ _ _ _ _ _ Hbe Hr Hd) as (x2 & -> & Hx). cbn [bind].
    destruct ((s1 =? 0) && is_not_lost p1); [apply IH; auto|auto].
  - rewrite (disp_same_undef _ _ _ _ Hr Hd). cbn [bind]. exact Logic.I.
Qed.

Lemma same_loop : forall fuel bes start n p o1 o2 s, Forall (not_set k) bes -> same_but o1 o2 ->
  same_result (until_turn_loop zero rdisp fuel bes start n p o1 s)
              (until_turn_loop zero disp fuel bes start n p o2 s).
Proof.
  induction fuel as [|f IH]; intros bes start n p o1 o2 s Hns Ho; cbn [until_turn_loop]; [exact Logic.I|].
  pose proof (same_pass bes p o1 o2 s Hns Ho) as Hp.
  destruct (turn_pass rdisp bes p o1 s) as [[[[p1 x1] s1] b1]| |],
           (turn_pass disp bes p o2 s) as [[[[p2 x2] s2] b2]| |]; try contradiction; cbn [bind]; [|exact Logic.I].
  destruct Hp as (-> & -> & -> & Hx). destruct b2; [|cbn; auto].
  cbv zeta. destruct (_ <? _); [apply IH; auto|cbn; auto].
Qed.

Lemma ebe_same : forall lattice n p, lattice <> [] ->
  Forall (fun be => failing_silently c be = false) lattice -> Forall (not_set k) lattice ->
  tracked p -> e_out cfg = Some k ->
  same_result (elem_by_elem N c cfg lattice n p outs0) (until_turn N c lattice n p outs0).
Proof.
  intros lattice n p Hne Hf Hns Ht Ek. rewrite (ebe_until lattice n p Hne Hf Ht Ek).
  unfold until_turn, track_until_turn. destruct (_ && _ && _).
  - apply same_loop; auto using same_but_refl.
  - cbn. auto using same_but_refl.
Qed.

(* the particle arrives at the same places in the same states *)
Lemma arrives_same : forall lattice p t j q o, Forall (not_set k) lattice ->
  arrives zero disp lattice p outs0 t j q o ->
  exists o', arrives zero rdisp lattice p outs0 t j q o' /\ same_but o' o.
Proof.
  intros lattice p t j q o Hns H.
  induction H as [|t j q o be q' o' H (o1 & IH & Hsb) Hb Hd Hs|t q o H (o1 & IH & Hsb)].
  - exists outs0. split; [constructor|apply same_but_refl].
  - assert (Hbe : not_set k be) by (eapply Forall_forall in Hns; [exact Hns|eapply nth_error_In; eauto]).
    assert (Hsb' : same_but o (recorded q o1)).
    { destruct (same_but_recorded q o1 o Hsb) as (A & B). split; [auto|]. intros; symmetry; auto. }
    destruct (disp_same_but _ _ _ _ _ _ _ Hbe Hsb' Hd) as (o2 & Hd2 & Ho2).
    exists o2. split; [eapply arrives_next; eauto|]. destruct Ho2. split; auto. intros; symmetry; auto.
  - exists o1. split; [apply arrives_turn; auto|auto].
Qed.

(* ---------------- records ---------------- *)

Lemma rdisp_frame : forall be p o p' o' st i, not_set k be -> rdisp be p o = Some (p', o', st) ->
  slot o' k i = slot (recorded p o) k i.
Proof.
  intros be p o p' o' st i Hns H. unfold rdisp in H. eapply dispatch_frame; [exact H|].
  intros m -> Hm. exfalso. apply Hns. exact Hm.
Qed.

Lemma rarr_shape : forall lattice p t j q o, arrives zero rdisp lattice p outs0 t j q o -> shape o = shape outs0.
Proof.
  intros lattice p t j q o H. induction H as [|t j q o be q' o' H IH Hb Hd Hs|t q o H IH]; auto.
  apply rdisp_inv in Hd as (_ & _ & Hsh & _). congruence.
Qed.

Lemma ebe_record : forall lattice n p p' outs' st t j q o, lattice <> [] ->
  Forall (fun be => failing_silently c be = false) lattice -> Forall (not_set k) lattice ->
  tracked p -> e_out cfg = Some k ->
  elem_by_elem N c cfg lattice n p outs0 = Ok (p', outs', st) ->
  arrives zero disp lattice p outs0 t j q o -> t < n -> (j < length lattice)%nat ->
  0 <= ebe_store_index cfg (p_particle_id p) (p_at_element_id p + Z.of_nat j) t < nn ->
  (forall t2 j2, before t j t2 j2 -> t2 < n -> (j2 < length lattice)%nat ->
     ebe_store_index cfg (p_particle_id p) (p_at_element_id p + Z.of_nat j2) t2 <>
     ebe_store_index cfg (p_particle_id p) (p_at_element_id p + Z.of_nat j) t) ->
  slot outs' k (ebe_store_index cfg (p_particle_id p) (p_at_element_id p + Z.of_nat j) t) = Some q.
Proof.
  intros lattice n p p' outs' st t j q o Hne Hf Hns Htr Ek H Ha Htn Hj Hi Hlater.
  rewrite (ebe_until lattice n p Hne Hf Htr Ek) in H.
  destruct (arrives_same _ _ _ _ _ _ Hns Ha) as (o1 & Hq & _). clear Ha o.
  assert (Hnl : is_not_lost p = true) by (unfold is_not_lost; rewrite (proj1 Htr); reflexivity).
  assert (Hidx : forall t j q o, arrives zero rdisp lattice p outs0 t j q o ->
    rec_index q = ebe_store_index cfg (p_particle_id p) (p_at_element_id p + Z.of_nat j) t).
  { intros t1 j1 q1 o2 A. destruct (arrives_ids _ _ _ _ _ rdisp_keeps_ids _ _ _ _ _ _ _ Hnl A) as (A1 & A2 & A3 & _).
    unfold rec_index. congruence. }
  pose proof (arrives_from _ _ _ _ _ _ _ _ _ Hq) as (Hpt & _).
  set (P := fun o' : outsets T => slot o' k (ebe_store_index cfg (p_particle_id p) (p_at_element_id p + Z.of_nat j) t) = Some q).
  change (P outs').
  (* the visit writes the record *)
  assert (Hw : forall be q' o' s', nth_error lattice j = Some be -> rdisp be q o1 = Some (q', o', s') -> P o').
  { intros be q' o' s' Hbe Hd. unfold P. rewrite (rdisp_frame _ _ _ _ _ _ _ (proj1 (Forall_forall _ _) Hns _ (nth_error_In _ _ Hbe)) Hd).
    rewrite <- (Hidx _ _ _ _ Hq). apply store_ok; [eapply rarr_shape; eauto|].
    rewrite (Hidx _ _ _ _ Hq). exact Hi. }
  (* later visits write elsewhere *)
  assert (Hkeep : forall t2 j2 q2 o2 be q' o' s', before t j t2 j2 -> t2 < n -> arrives zero rdisp lattice p outs0 t2 j2 q2 o2 ->
    nth_error lattice j2 = Some be -> rdisp be q2 o2 = Some (q', o', s') -> P o2 -> P o').
  { intros t2 j2 q2 o2 be q' o' s' Hb Ht2 A Hbe Hd HP. unfold P.
    rewrite (rdisp_frame _ _ _ _ _ _ _ (proj1 (Forall_forall _ _) Hns _ (nth_error_In _ _ Hbe)) Hd).
    rewrite recorded_frame; [exact HP|]. intros (_ & E). rewrite (Hidx _ _ _ _ A) in E.
    eapply (Hlater t2 j2); eauto. apply nth_error_Some. congruence. }
  assert (Hall : forall t2 j2 q2 o2, arrives zero rdisp lattice p outs0 t2 j2 q2 o2 ->
    before t j t2 j2 -> t2 < n \/ t2 = n /\ j2 = 0%nat -> P o2).
  { intros t2 j2 q2 o2 A. induction A as [|t2 j2 q2 o2 be q' o' A IH Hbe Hd Hs|t2 q2 o2 A IH]; intros Hb Hbound.
    - unfold before in Hb. lia.
    - destruct (Z.eq_dec t t2) as [<-|Et]; [destruct (Nat.eq_dec j j2) as [<-|Ej]|].
      + destruct (arrives_fun _ _ _ _ _ Hne _ _ _ _ A _ _ Hq) as (-> & ->). eauto.
      + apply (Hkeep t j2 q2 o2 be q' o' 0); auto; [unfold before in *; lia|].
        apply IH; [unfold before in *|]; lia.
      + apply (Hkeep t2 j2 q2 o2 be q' o' 0); auto; [unfold before in *; lia|lia|].
        apply IH; [unfold before in *|]; lia.
    - apply IH; [unfold before in *; lia|lia]. }
  destruct (track_bookkeeping _ _ _ _ _ rdisp_keeps_ids _ _ _ _ _ _ _ Hne (proj1 Htr) (Z.le_lt_trans _ _ _ Hpt Htn) H)
    as [(_ & _ & _ & _ & _ & Hend)|(_ & t3 & j3 & q3 & Ht3 & Hj3 & Hst & _)].
  - apply (Hall _ _ _ _ Hend); [unfold before; lia|right; auto].
  - destruct Hst as (q4 & o4 & be & A4 & Hbe & Hd & Hstop).
    destruct (Z.eq_dec t t3) as [<-|Et]; [destruct (Nat.eq_dec j j3) as [<-|Ej]|].
    + destruct (arrives_fun _ _ _ _ _ Hne _ _ _ _ A4 _ _ Hq) as (-> & ->). eauto.
    + destruct (Nat.lt_ge_cases j j3).
      * apply (Hkeep t j3 q4 o4 be q3 outs' st); auto; [unfold before; lia|].
        apply (Hall _ _ _ _ A4); [unfold before; lia|lia].
      * exfalso. assert (Hbb : before t j3 t j) by (unfold before; lia).
        destruct (arrives_pass zero rdisp lattice p outs0 t j3 _ _ _ _ Hpt Hj3 Hq Hbb)
          as (q5 & o5 & be5 & q6 & o6 & B1 & B2 & B3 & B4).
        destruct (arrives_fun _ _ _ _ _ Hne _ _ _ _ A4 _ _ B1) as (-> & ->).
        assert (be5 = be) as -> by congruence. rewrite Hd in B3.
        assert (q3 = q6 /\ st = 0) as (-> & ->) by (split; congruence). destruct Hstop; congruence.
    + destruct (Z.lt_ge_cases t t3).
      * apply (Hkeep t3 j3 q4 o4 be q3 outs' st); auto; [unfold before; lia|lia|].
        apply (Hall _ _ _ _ A4); [unfold before; lia|lia].
      * exfalso. assert (Hbb : before t3 j3 t j) by (unfold before; lia).
        destruct (arrives_pass zero rdisp lattice p outs0 t3 j3 _ _ _ _ (proj1 Ht3) Hj3 Hq Hbb)
          as (q5 & o5 & be5 & q6 & o6 & B1 & B2 & B3 & B4).
        destruct (arrives_fun _ _ _ _ _ Hne _ _ _ _ A4 _ _ B1) as (-> & ->).
        assert (be5 = be) as -> by congruence. rewrite Hd in B3.
        assert (q3 = q6 /\ st = 0) as (-> & ->) by (split; congruence). destruct Hstop; congruence.
Qed.

End EbeRun.

(* an index that is not -1 belongs to particle, element and turn the configuration holds *)
Lemma index_inside : forall cfg pid eid turn, ebe_store_index cfg pid eid turn <> -1 ->
  e_min_pid cfg <= pid <= e_max_pid cfg /\ e_min_eid cfg <= eid <= e_max_eid cfg /\
  e_min_turn cfg <= turn /\ (turn <= e_max_turn cfg \/ e_rolling cfg = true).
Proof.
  intros cfg pid eid turn H. unfold ebe_store_index in H.
  destruct (_ && _ && _ && _ && _ && _) eqn:E; [|congruence].
  rewrite !andb_true_iff, orb_true_iff, !Z.leb_le in E. tauto.
Qed.

(* the record of (t, j) is the last one in its place, among the turns below n *)
Definition lasting (cfg : ebe_config) (pid eid t n : Z) : Prop :=
  if e_rolling cfg
  then e_min_pid cfg <= pid <= e_max_pid cfg /\ e_min_eid cfg <= eid <= e_max_eid cfg /\
       e_min_turn cfg <= t /\ n <= t + ebe_turns cfg
  else ebe_covers cfg pid eid t.

Lemma lasting_index : forall cfg pid e0 j t n, ebe_made cfg -> lasting cfg pid (e0 + Z.of_nat j) t n ->
  0 <= ebe_store_index cfg pid (e0 + Z.of_nat j) t < ebe_capacity cfg /\
  forall t2 j2, before t j t2 j2 -> t2 < n ->
    ebe_store_index cfg pid (e0 + Z.of_nat j2) t2 <> ebe_store_index cfg pid (e0 + Z.of_nat j) t.
Proof.
  intros cfg pid e0 j t n Hm Hl. unfold lasting in Hl. destruct (e_rolling cfg) eqn:Hr.
  - destruct Hl as (H1 & H2 & H3 & H4).
    pose proof (rolling_bounds cfg _ _ _ Hm Hr H1 H2 H3) as Hb. split; auto.
    intros t2 j2 Hbf Ht2 E. rewrite <- E in Hb.
    destruct (index_inside cfg pid (e0 + Z.of_nat j2) t2 ltac:(lia)) as (A1 & A2 & A3 & _).
    apply (rolling_share cfg) in E as (_ & Ee & (m & Em)); auto.
    destruct (made_inv cfg Hm) as (_ & _ & _ & It & _). unfold before in Hbf.
    assert (0 < ebe_turns cfg) by (unfold ebe_turns; lia). assert (j2 = j) by lia.
    assert (t < t2) by lia. assert (1 <= m) by nia. nia.
  - destruct (index_covered cfg _ _ _ Hm Hl) as (_ & Hb). split; auto.
    intros t2 j2 Hbf Ht2 E. rewrite <- E in Hb.
    destruct (index_inside cfg pid (e0 + Z.of_nat j2) t2 ltac:(lia)) as (A1 & A2 & A3 & [A4|A4]); [|congruence].
    apply (index_injective cfg) in E as (_ & Ee & Et); auto; [|unfold ebe_covers; auto].
    unfold before in Hbf. lia.
Qed.
