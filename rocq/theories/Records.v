(* What tracking leaves in the output: a record written once stays there until its place
   is written again; beam monitors. *)
From Coq Require Import ZArith List Bool Lia.
From Verif Require Import Num Particle Elements EbeConfig Track TrackSpec TrackProofs
  DispatchProofs MonitorSpec MonitorProofs.
Import ListNotations.
Local Open Scope Z_scope.

(* position j1 of turn t1 comes before position j2 of turn t2 *)
Definition before (t1 : Z) (j1 : nat) (t2 : Z) (j2 : nat) : Prop :=
  t1 < t2 \/ t1 = t2 /\ (j1 < j2)%nat.

Section Slot.
Context {T E M : Type}.
Variable zero : T.
Variable disp : E -> particle T -> M -> option (particle T * M * Z).
Variable bes : list E.
Variables (p0 : particle T) (o0 : M).
Notation arr := (arrives zero disp bes p0 o0).

Lemma arrives_from : forall t j q o, arr t j q o -> p_at_turn p0 <= t /\ (j <= length bes)%nat.
Proof.
  intros t j q o H. induction H as [|t j q o be q' o' H IH Hb Hd Hs|t q o H IH].
  - split; lia.
  - destruct IH. split; auto.
    assert (nth_error bes j <> None) as Hn by congruence. apply nth_error_Some in Hn. lia.
  - lia.
Qed.

Lemma arrives_fun : bes <> [] -> forall t j q o, arr t j q o -> forall q' o', arr t j q' o' -> q = q' /\ o = o'.
Proof.
  intros Hne t j q o H.
  induction H as [|t j q o be q1 o1 H IH Hb Hd Hs|t q o H IH]; intros q' o' H'.
  - remember (p_at_turn p0) as t0 eqn:Et. remember 0%nat as j0 eqn:Ej.
    destruct H' as [|t j q o be q1 o1 H' Hb Hd Hs|t q o H']; auto; [discriminate|].
    apply arrives_from in H'. lia.
  - remember (S j) as j0 eqn:Ej.
    destruct H' as [|t j' q' o' be' q2 o2 H' Hb' Hd' Hs'|t q' o' H']; try discriminate.
    injection Ej as ->. apply IH in H' as (<- & <-).
    rewrite Hb in Hb'. injection Hb' as <-. rewrite Hd in Hd'.
    assert (q1 = q2 /\ o1 = o2) as (<- & <-) by (split; congruence). auto.
  - remember (t + 1) as t0 eqn:Et. remember 0%nat as j0 eqn:Ej.
    destruct H' as [|t' j' q' o' be' q2 o2 H' Hb' Hd' Hs'|t' q' o' H']; try discriminate.
    + apply arrives_from in H. lia.
    + assert (t' = t) by lia. subst t'. apply IH in H' as (<- & <-). auto.
Qed.

(* a fact about the memory that the visit (t1, j1) establishes and that no later visit
   breaks holds whenever the particle arrives later *)
Lemma slot_kept : forall (P : M -> Prop) t1 j1, p_at_turn p0 <= t1 -> (j1 < length bes)%nat ->
  (forall q o be q' o', arr t1 j1 q o -> nth_error bes j1 = Some be ->
     disp be q o = Some (q', o', 0) -> p_state q' = 1 -> P o') ->
  (forall t j q o be q' o', before t1 j1 t j -> arr t j q o -> nth_error bes j = Some be ->
     disp be q o = Some (q', o', 0) -> p_state q' = 1 -> P o -> P o') ->
  forall t j q o, arr t j q o -> before t1 j1 t j -> P o.
Proof.
  intros P t1 j1 H1 Hj1 Hw Hk t j q o H.
  induction H as [|t j q o be q' o' H IH Hb Hd Hs|t q o H IH]; intros Hbef.
  - unfold before in Hbef. lia.
  - destruct (Z.eq_dec t1 t) as [->|Et]; [destruct (Nat.eq_dec j1 j) as [->|Ej]|].
    + eapply Hw; eauto.
    + assert (before t j1 t j) by (unfold before in *; lia). eapply Hk; eauto.
    + assert (before t1 j1 t j) by (unfold before in *; lia). eapply Hk; eauto.
  - apply IH. unfold before in *. lia.
Qed.

End Slot.

(* contents of position i of output set k *)
Definition slot {T} (o : outsets T) (k : nat) (i : Z) : option (particle T) :=
  match nth_error o k with
  | Some l => if 0 <=? i then nth_error l (Z.to_nat i) else None
  | None => None
  end.

Section Stores.
Context {T : Type} (N : NumOps T) (c : config T).

Lemma store_out_ok : forall (o : outsets T) k i p l, nth_error o k = Some l ->
  0 <= i < Z.of_nat (length l) ->
  exists o', store_out o k i p = Some (o', 0) /\ slot o' k i = Some p.
Proof.
  intros o k i p l Hk Hi. unfold store_out. rewrite Hk.
  replace (i <? Z.of_nat (length l)) with true by (symmetry; apply Z.ltb_lt; lia).
  replace (0 <=? i) with true by (symmetry; apply Z.leb_le; lia).
  eexists; split; [reflexivity|]. unfold slot.
  rewrite upd_same by (apply nth_error_Some; congruence).
  replace (0 <=? i) with true by (symmetry; apply Z.leb_le; lia).
  apply upd_same. lia.
Qed.

Lemma store_out_frame : forall (o : outsets T) k i p o' st k' i', store_out o k i p = Some (o', st) ->
  ~ (k' = k /\ i' = i) -> slot o' k' i' = slot o k' i'.
Proof.
  intros o k i p o' st k' i' H Hne. unfold store_out in H.
  destruct (nth_error o k) as [l|] eqn:Hk; [|discriminate].
  destruct (i <? _) eqn:Hi; [|congruence]. destruct (0 <=? i) eqn:H0; [|discriminate].
  assert (o' = upd o k (upd l (Z.to_nat i) p)) as -> by congruence. clear H. unfold slot.
  destruct (Nat.eq_dec k' k) as [->|Ek].
  - rewrite upd_same by (apply nth_error_Some; congruence). rewrite Hk.
    destruct (0 <=? i') eqn:H0'; [|reflexivity]. apply upd_other.
    apply Z.leb_le in H0. apply Z.leb_le in H0'. intro. apply Hne. split; auto. lia.
  - rewrite upd_other by auto. reflexivity.
Qed.

Lemma store_out_status : forall (o : outsets T) k i p o' st, store_out o k i p = Some (o', st) ->
  st = 0 \/ st <> 0 /\ o' = o.
Proof.
  intros o k i p o' st H. unfold store_out in H.
  destruct (nth_error o k); [|discriminate]. destruct (i <? _); [destruct (0 <=? i); [|discriminate]|].
  - left; congruence.
  - right. split; congruence.
Qed.

(* the only element that writes to the output is the beam monitor, to its own set *)
Lemma dispatch_frame : forall be p o p' o' st k i,
  dispatch N c be p o = Some (p', o', st) ->
  (forall m, be = BMonitor m -> m_out m = Some k ->
     monitor_store_index m (p_at_turn p) (p_particle_id p) <> i) ->
  slot o' k i = slot o k i.
Proof.
  intros be p o p' o' st k i H Hm.
  destruct (is_monitor be) eqn:Hb.
  - destruct be; try discriminate. cbn [dispatch] in H. unfold track_monitor in H.
    destruct (m_out m) as [k1|] eqn:Ho; [|congruence].
    destruct (0 <=? _) eqn:H0; [|congruence].
    destruct (store_out o k1 _ p) as [[o1 s1]|] eqn:Hs; [|discriminate].
    assert (o' = o1) as -> by (destruct (s1 =? 0); congruence).
    apply (store_out_frame _ _ _ _ _ _ k i Hs). intros (-> & ->). eapply Hm; eauto.
  - apply dispatch_inv in H as (_ & _ & _ & Hf & _). rewrite (Hf Hb). reflexivity.
Qed.

(* a monitor with room for the position stores the particle and leaves it as it is *)
Lemma monitor_stores : forall m p o k l, m_out m = Some k -> nth_error o k = Some l ->
  0 <= monitor_store_index m (p_at_turn p) (p_particle_id p) < Z.of_nat (length l) ->
  exists o', dispatch N c (BMonitor m) p o = Some (p, o', 0) /\
    slot o' k (monitor_store_index m (p_at_turn p) (p_particle_id p)) = Some p.
Proof.
  intros m p o k l Ho Hl Hi. cbn [dispatch]. unfold track_monitor. rewrite Ho.
  replace (0 <=? monitor_store_index m (p_at_turn p) (p_particle_id p)) with true
    by (symmetry; apply Z.leb_le; lia).
  destruct (store_out_ok o k _ p l Hl Hi) as (o' & E & Hs). rewrite E. cbn [Z.eqb].
  eauto.
Qed.

End Stores.

Section MonitorRecords.
Context {T : Type} (N : NumOps T) (c : config T).
Variables (lattice : list (element T)) (p0 : particle T) (o0 : outsets T).
Notation arr := (arrives (nzero N) (dispatch N c) lattice p0 o0).
Variables (jm k : nat) (m : monitor) (l : list (particle T)).
Hypothesis Hact : p_state p0 = 1.
Hypothesis Hm : nth_error lattice jm = Some (BMonitor m).
Hypothesis Hready : mon_ready m.
Hypothesis Hord : m_turn_ordered m = true.
Hypothesis Hout : m_out m = Some k.
Hypothesis Hset : nth_error o0 k = Some l.
Hypothesis Hsize : mon_slots m <= Z.of_nat (length l).
Hypothesis Hid : mon_accepts m (p_particle_id p0).
Hypothesis Hown : forall j m', nth_error lattice j = Some (BMonitor m') -> m_out m' = Some k -> j = jm.

Lemma arr_shape : forall t j q o, arr t j q o -> shape o = shape o0.
Proof.
  clear Hact Hm Hready Hord Hout Hset Hsize Hid Hown.
  intros t j q o H. induction H as [|t j q o be q' o' H IH Hb Hd Hs|t q o H IH]; auto.
  apply dispatch_inv in Hd as (_ & _ & Hsh & _). congruence.
Qed.

Lemma arr_set : forall t j q o, arr t j q o -> exists l', nth_error o k = Some l' /\ length l' = length l.
Proof.
  intros t j q o H. apply arr_shape in H. pose proof (shape_nth _ _ k H) as Hk.
  rewrite Hset in Hk. destruct (nth_error o k) as [l'|]; [eauto|contradiction].
Qed.

(* sample i1 (turn t1) is where the monitor puts it, as long as no later sample that has
   been taken overwrites it *)
Lemma monitor_record : forall t1 i1 q1 o1 t j q o,
  arr t1 jm q1 o1 -> sample m t1 i1 -> mon_keeps m i1 ->
  arr t j q o -> before t1 jm t j ->
  (forall t2 i2, sample m t2 i2 -> mon_keeps m i2 -> i1 < i2 -> before t2 jm t j ->
     ~ same_store m i1 i2) ->
  slot o k (monitor_store_index m t1 (p_particle_id p0)) = Some q1.
Proof.
  intros t1 i1 q1 o1 t j q o Ha1 Hs1 Hk1 Ha Hb Hlater.
  assert (Hn : is_not_lost p0 = true) by (unfold is_not_lost; rewrite Hact; reflexivity).
  assert (Hne : lattice <> []) by (intro E; rewrite E in Hm; destruct jm; discriminate).
  assert (Hj : (jm < length lattice)%nat) by (apply nth_error_Some; congruence).
  pose proof (arrives_from _ _ _ _ _ _ _ _ _ Ha1) as (Ht1 & _).
  (* generalise: the bound (t, j) is fixed, the arrival before it varies *)
  set (P := fun o' : outsets T => slot o' k (monitor_store_index m t1 (p_particle_id p0)) = Some q1).
  change (P o).
  assert (Hgen : forall t' j' q' o', arr t' j' q' o' -> before t1 jm t' j' ->
    (t' = t /\ (j' <= j)%nat \/ t' < t) -> P o').
  { clear Ha. intros t' j' q' o' Ha'.
    induction Ha' as [|t' j' q' o' be q2 o2 H IH Hbe Hd Hs|t' q' o' H IH]; intros Hb' Hle.
    - unfold before in Hb'. lia.
    - pose proof (arrives_ids _ _ _ _ _ (dispatch_keeps_ids N c) _ _ _ _ _ _ _ Hn H) as (Hat & _ & Hpid & _).
      destruct (arr_set _ _ _ _ H) as (l' & Hl' & Hlen).
      destruct (Nat.eq_dec j' jm) as [->|Ej].
      + assert (be = BMonitor m) as -> by congruence.
        destruct (Z.eq_dec t1 t') as [<-|Et].
        * destruct (arrives_fun _ _ _ _ _ Hne _ _ _ _ H _ _ Ha1) as (-> & ->).
          assert (Hi : 0 <= monitor_store_index m (p_at_turn q1) (p_particle_id q1) < Z.of_nat (length l')).
          { rewrite Hat, Hpid. pose proof (in_slots m t1 i1 _ Hready Hord Hs1 Hk1 Hid). lia. }
          destruct (monitor_stores N c m q1 o1 k l' Hout Hl' Hi) as (o3 & E3 & Hs3).
          rewrite E3 in Hd. assert (o2 = o3) as -> by congruence.
          unfold P. rewrite Hat, Hpid in Hs3. exact Hs3.
        * assert (HP : P o') by (apply IH; unfold before in *; lia).
          unfold P. rewrite <- HP. unfold P.
          eapply dispatch_frame; [exact Hd|]. intros m' Em _. injection Em as <-.
          rewrite Hat, Hpid. intros Ei.
          assert (Hi1 := in_slots m t1 i1 _ Hready Hord Hs1 Hk1 Hid).
          destruct (index_nonneg m t' (p_particle_id p0) Hready ltac:(lia)) as (i2 & Hs2 & Hk2).
          assert (i1 < i2).
          { destruct Hs1 as (? & E1), Hs2 as (? & E2), Hready as (? & ? & ?).
            assert (t1 < t') by (unfold before in Hb'; lia). nia. }
          apply (Hlater t' i2 Hs2 Hk2 H0); [unfold before; lia|].
          apply (collision m t1 i1 (p_particle_id p0) t' i2 (p_particle_id p0)); auto.
      + assert (HP : P o') by (apply IH; unfold before in *; lia).
        unfold P. rewrite <- HP. unfold P.
        eapply dispatch_frame; [exact Hd|]. intros m' -> Hk'. exfalso. apply Ej. eapply Hown; eauto.
    - apply IH; unfold before in *; lia. }
  apply (Hgen _ _ _ _ Ha Hb). left; split; auto.
Qed.

End MonitorRecords.
