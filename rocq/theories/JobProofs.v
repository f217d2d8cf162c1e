(* Setting up a track job: the output it prepares. *)
From Coq Require Import ZArith List Bool Lia.
From Verif Require Import Num Particle Elements EbeConfig EbeSpec EbeProofs ParticleSet ParticleSetProofs
  ParticleIds ParticleSpec ParticleIdsProofs Output MonitorSpec OutputSpec PrepareProofs.
Import ListNotations.
Local Open Scope Z_scope.

Section Job.
Context {T : Type}.
Variable blank : particle T.
Variable room : outsets T -> Z -> bool.

(* ---------------- element range ---------------- *)

Lemma count_all : forall n, count_elements (repeat true n) = Z.of_nat n.
Proof. induction n as [|n IH]; [reflexivity|]. cbn [repeat count_elements]. rewrite IH. lia. Qed.

Lemma range_all : forall n mn mx, (0 < n)%nat ->
  find_element_range (repeat true n) mn mx 0 =
    Some (keep_min mn 0, keep_max mx (Z.of_nat n - 1), Z.of_nat n).
Proof.
  intros [|n] mn mx Hn; [lia|]. unfold find_element_range. rewrite repeat_length.
  replace (0 <? Z.of_nat (S n)) with true by (symmetry; apply Z.ltb_lt; lia).
  change (0 <=? 0) with true. cbn [andb repeat find_first_element]. rewrite count_all.
  replace (1 + Z.of_nat n =? 0) with false by (symmetry; apply Z.eqb_neq; lia).
  change (0 <=? 0) with true. cbn [andb].
  replace (0 <=? 0 + Z.of_nat n) with true by (symmetry; apply Z.leb_le; lia).
  replace (0 + Z.of_nat n <? 0 + (1 + Z.of_nat n)) with true by (symmetry; apply Z.ltb_lt; lia).
  cbn [andb]. f_equal. f_equal; [f_equal; f_equal; lia|lia].
Qed.

Lemma counts_all : forall line : list (element T), forallb (@is_beam_element T) line = true ->
  map (@counts T) line = repeat true (length line).
Proof.
  induction line as [|be line IH]; intros H; [reflexivity|]. cbn in H. apply andb_prop in H as (H & Hr).
  cbn [map repeat length]. rewrite IH by auto. destruct be; try discriminate; reflexivity.
Qed.

Lemma counts_set_ids : forall a b (line : list (element T)), map (@counts T) (set_all_ids a b line) = map (@counts T) line.
Proof. intros. unfold set_all_ids. rewrite map_map. apply map_ext. intros be; destruct be; reflexivity. Qed.

(* ---------------- particles ---------------- *)

Definition job_sets (objs : list (pobj T)) (idx : list Z) : Prop :=
  idx <> [] /\ (length idx <= length objs)%nat /\
  (forall i, In i idx -> exists p, aget objs i = Some (Part p) /\ pset_wf p /\ 0 < ps_num p) /\
  int64_values (member_sets objs idx) /\
  (forall q, member_sets objs idx q -> 0 <= p_particle_id q /\ 0 <= p_at_element_id q /\ 0 <= p_at_turn q).

Lemma job_particles_ok : forall objs idx, job_sets objs idx ->
  exists m, job_particles objs idx = Some (m, SUCCESS) /\ get_min_max_sets objs idx = Some (m, SUCCESS) /\
    ranges_of (member_sets objs idx) m.
Proof.
  intros objs idx (Hne & Hlen & Hall & Hint & _).
  destruct (get_min_max_sets_ok objs idx Hne Hall Hint) as (m & Hm & Hr).
  exists m. split; [|auto]. unfold job_particles.
  replace (Z.of_nat (length idx) <=? Z.of_nat (length objs)) with true by (symmetry; apply Z.leb_le; lia).
  destruct ((Z.of_nat (length idx) <=? 1) && (nth 0 idx 0 =? 0)) eqn:E; [|exact Hm].
  apply andb_prop in E as (E1 & E2). apply Z.leb_le in E1. apply Z.eqb_eq in E2.
  destruct idx as [|i [|? ?]]; [congruence| |cbn [length] in E1; lia].
  cbn [nth] in E2. subst i.
  unfold get_min_max_sets, find_min_max_sets in Hm.
  replace (0 <? Z.of_nat (length [0])) with true in Hm by reflexivity.
  replace (0 <? Z.of_nat (length objs)) with true in Hm by (symmetry; apply Z.ltb_lt; cbn [length] in Hlen; lia).
  cbn [andb find_min_max_sets_loop] in Hm.
  destruct (get_const_particles objs 0) as [[p|]|]; cbn [obind] in Hm; [|discriminate|discriminate].
  unfold get_min_max. destruct (find_min_max p minmax_init) as [[m1 s1]|]; cbn [obind] in Hm; [|discriminate].
  destruct (s1 =? 0) eqn:Es; [|congruence]. apply Z.eqb_eq in Es. subst s1. exact Hm.
Qed.

Definition in_ranges (m : minmax) : Prop :=
  0 <= mm_min_pid m <= mm_max_pid m /\ 0 <= mm_min_elem m <= mm_max_elem m /\
  0 <= mm_min_turn m <= mm_max_turn m.

Lemma ranges_valid : forall objs idx m, job_sets objs idx -> ranges_of (member_sets objs idx) m ->
  in_ranges m /\
  (forall q, member_sets objs idx q -> mm_min_pid m <= p_particle_id q <= mm_max_pid m /\
     mm_min_turn m <= p_at_turn q <= mm_max_turn m) /\
  (exists q, member_sets objs idx q /\ p_at_turn q = mm_min_turn m).
Proof.
  intros objs idx m (_ & _ & _ & _ & Hpos) ((P1 & (q1 & A1 & B1) & _) & (E1 & (q2 & A2 & B2) & _) & (T1 & (q3 & A3 & B3) & _)).
  split; [|split; [|eauto]].
  - pose proof (Hpos _ A1). pose proof (Hpos _ A2). pose proof (Hpos _ A3).
    specialize (P1 _ A1). specialize (E1 _ A2). specialize (T1 _ A3). unfold in_ranges. lia.
  - intros q Hq. specialize (P1 _ Hq). specialize (T1 _ Hq). pose proof (Hpos _ Hq). lia.
Qed.

(* ranges of the job: elements 0 .. number of elements - 1, at least *)
Definition with_line (m : minmax) (n : nat) : minmax :=
  mkMinMax (mm_min_pid m) (mm_max_pid m) (keep_min (mm_min_elem m) 0)
    (keep_max (mm_max_elem m) (Z.of_nat n - 1)) (mm_min_turn m) (mm_max_turn m).

Lemma with_line_valid : forall m n, in_ranges m -> (0 < n)%nat ->
  in_ranges (with_line m n) /\ mm_min_elem (with_line m n) = 0 /\ Z.of_nat n - 1 <= mm_max_elem (with_line m n).
Proof.
  intros m n (H1 & H2 & H3) Hn. unfold in_ranges, with_line, keep_min, keep_max. cbn [mm_min_pid mm_max_pid mm_min_elem mm_max_elem mm_min_turn mm_max_turn].
  destruct (Z.ltb_spec 0 (mm_min_elem m)); destruct (Z.ltb_spec (mm_max_elem m) (Z.of_nat n - 1)); lia.
Qed.

Lemma required : forall m until (line : list (element T)), in_ranges m -> (0 < length line)%nat ->
  out_required m until line = (mm_min_turn m <? until, has_storing_monitor line).
Proof.
  intros m until line (H1 & H2 & H3) Hl. unfold out_required.
  replace (_ && _ && _ && _ && _ && _) with true by (symmetry; rewrite !andb_true_iff, !Z.leb_le; lia).
  replace (0 <? Z.of_nat (length line)) with true by (symmetry; apply Z.ltb_lt; lia).
  rewrite andb_true_r. reflexivity.
Qed.

(* ---------------- preparing ---------------- *)

Lemma out_prepare_ok : forall m until line outs line1 outs2 k off mt, in_ranges m ->
  out_prepare_detailed blank room m until line outs = (line1, outs2, Some (k, off, mt)) ->
  exists outs1, off = length outs1 /\
    mon_prepare blank room (mm_min_pid m) (mm_max_pid m) (mm_min_turn m) line outs1 = (line1, outs2, SUCCESS) /\
    (mm_min_turn m < until -> exists l, outs1 = outs ++ [l] /\ k = length outs /\ mt = until - 1 /\
       Z.of_nat (length l) = (mm_max_pid m - mm_min_pid m + 1) * (mm_max_elem m - mm_min_elem m + 1) *
                             (until - mm_min_turn m)) /\
    (until <= mm_min_turn m -> outs1 = outs).
Proof.
  intros m until line outs line1 outs2 k off mt (H1 & H2 & H3) H. unfold out_prepare_detailed in H.
  replace (0 <=? mm_min_turn m) with true in H by (symmetry; apply Z.leb_le; lia). cbn [andb] in H.
  destruct (Z.ltb_spec (mm_min_turn m) until) as [Hlt|Hge].
  - unfold ebe_prepare_detailed in H.
    replace (_ && _ && _ && _ && _ && _) with true in H by (symmetry; rewrite !andb_true_iff, !Z.leb_le; lia).
    unfold particles_new in H. destruct (room outs _); [|discriminate].
    destruct (mon_prepare _ _ _ _ _ _ _) as [[l1 o2] st] eqn:Hp in H.
    destruct (st =? 0) eqn:Es; [|discriminate]. apply Z.eqb_eq in Es. subst st.
    eexists. split; [|split; [|split; [|lia]]].
    2:{ rewrite Hp. f_equal. f_equal; congruence. }
    + congruence.
    + intros _. eexists. split; [reflexivity|]. split; [congruence|]. split; [congruence|].
      rewrite repeat_length. unfold ebe_stored_num_detailed.
      replace (_ && _ && _ && _ && _ && _) with true by (symmetry; rewrite !andb_true_iff, !Z.leb_le; lia).
      rewrite Z2Nat.id; [ring|]. apply Z.mul_nonneg_nonneg; [apply Z.mul_nonneg_nonneg|]; lia.
  - destruct (mon_prepare _ _ _ _ _ _ _) as [[l1 o2] st] eqn:Hp in H.
    destruct (st =? 0) eqn:Es; [|discriminate]. apply Z.eqb_eq in Es. subst st.
    exists outs. split; [congruence|]. split; [|split; [lia|auto]].
    rewrite Hp. f_equal. f_equal; congruence.
Qed.

Lemma prepare_appends : forall mn mx ft line outs line1 outs1,
  mon_prepare blank room mn mx ft line outs = (line1, outs1, SUCCESS) ->
  exists news, outs1 = outs ++ news.
Proof.
  intros. apply mon_prepare_inv in H as (_ & _ & H). apply prepare_loop_ok in H as (_ & news & -> & _). eauto.
Qed.

Lemma has_storing_false : forall (line : list (element T)) m, has_storing_monitor line = false ->
  In (BMonitor m) line -> m_num_stores m <= 0.
Proof.
  intros line m H Hin. destruct (Z.leb_spec (m_num_stores m) 0); auto.
  assert (has_storing_monitor line = true); [|congruence].
  apply existsb_exists. exists (BMonitor m). split; auto. apply Z.ltb_lt. lia.
Qed.

(* a line without a monitor that refers to a set *)
Lemma unassigned_well : forall (line : list (element T)) outs,
  (forall m, In (BMonitor m) line -> m_out m = None) ->
  well_assigned line outs /\ forall j k, ~ stores_in line j k.
Proof.
  intros line outs H. split.
  - intros j m k Hj Hk. rewrite (H m) in Hk; [discriminate|eapply nth_error_In; eauto].
  - intros j k (m & Hj & Hk). rewrite (H m) in Hk; [discriminate|eapply nth_error_In; eauto].
Qed.

Lemma idle_set_ids : forall ft a b (line : list (element T)), idle_unassigned ft line ->
  idle_unassigned ft (set_all_ids a b line).
Proof.
  intros ft a b line H m Hm. unfold set_all_ids in Hm. apply in_map_iff in Hm as (be & E & Hin).
  destruct be; try discriminate. injection E as <-.
  destruct (H _ Hin) as [Ht|Ho]; [left; exact Ht|right; exact Ho].
Qed.

(* no monitor keeps records: nothing is assigned *)
Lemma idle_prepared : forall mn mx ft line outs line1 outs1,
  mon_prepare blank room mn mx ft line outs = (line1, outs1, SUCCESS) -> idle_unassigned ft line ->
  forall m, In (BMonitor m) line1 -> m_out m = None.
Proof.
  intros mn mx ft line outs line1 outs1 H Hidle m Hm.
  apply mon_prepare_inv in H as (_ & _ & H). apply prepare_loop_ok in H as (-> & _).
  apply in_map_iff in Hm as (be & E & Hin).
  destruct be; try discriminate. cbn [prep] in E. destruct (active ft (BMonitor m0)) eqn:Ea.
  - assert (m = mon_set_out None (mon_set_ids mn mx m0)) as -> by congruence. reflexivity.
  - assert (m0 = m) as -> by congruence. destruct (Hidle _ Hin) as [Ht|]; auto.
    apply (active_spec (T:=T)) in Ht. congruence.
Qed.

(* ---------------- the job ---------------- *)

Lemma job_ok : forall again order rolling objs idx until line outs job t0,
  job_sets objs idx ->
  (forall q, member_sets objs idx q -> t0 <= p_at_turn q) ->
  (exists q, member_sets objs idx q /\ p_at_turn q = t0) ->
  job_reset blank room again order rolling objs idx until line outs = Some (job, SUCCESS) ->
  (t0 < until -> exists cfg k l, j_ebe job = Some cfg /\ e_out cfg = Some k /\
     nth_error (j_outs job) k = Some l /\ Z.of_nat (length l) = ebe_capacity cfg /\
     (exists mn mx mne mxe, ebe_init_detailed order mn mx mne mxe t0 (until - 1) rolling = Some (ebe_set_out cfg None)) /\
     (forall q e t, member_sets objs idx q -> 0 <= e < Z.of_nat (length line) -> p_at_turn q <= t < until ->
        ebe_covers cfg (p_particle_id q) e t) /\
     (idle_unassigned t0 line -> forall j, ~ stores_in (j_line job) j k)) /\
  (until <= t0 -> j_ebe job = None) /\
  (idle_unassigned t0 line -> well_assigned (j_line job) (j_outs job)).
Proof.
  intros again order rolling objs idx until line outs job t0 Hsets Hmin Hatt H.
  destruct (job_particles_ok objs idx Hsets) as (m & Hjp & Hgm & Hr).
  destruct (ranges_valid objs idx m Hsets Hr) as (Hv & Hq & q3 & A3 & B3).
  assert (Ht0 : mm_min_turn m = t0).
  { destruct Hatt as (q4 & A4 & B4). specialize (Hmin _ A3). pose proof (Hq _ A4). lia. }
  unfold job_reset in H. rewrite Hjp in H. change (SUCCESS =? 0) with true in H. cbn [negb] in H.
  unfold job_elements in H.
  destruct (0 <? Z.of_nat (length line)) eqn:Hl; [|discriminate].
  apply Z.ltb_lt in Hl. destruct (forallb (@is_beam_element T) line) eqn:Hbe; cbn [andb] in H; [|discriminate].
  rewrite (counts_all line Hbe), range_all in H by lia.
  change (mkMinMax (mm_min_pid m) (mm_max_pid m) (keep_min (mm_min_elem m) 0)
    (keep_max (mm_max_elem m) (Z.of_nat (length line) - 1)) (mm_min_turn m) (mm_max_turn m))
    with (with_line m (length line)) in H.
  destruct (with_line_valid m (length line) Hv ltac:(lia)) as (Hv' & He0 & HeN).
  set (line' := if again && (mm_min_pid (with_line m (length line)) <=? mm_max_pid (with_line m (length line)))
    then set_all_ids (mm_min_pid (with_line m (length line))) (mm_max_pid (with_line m (length line))) line
    else line) in H.
  assert (Hl' : length line' = length line).
  { unfold line', set_all_ids. destruct (_ && _); [apply map_length|reflexivity]. }
  assert (Hc' : map (@counts T) line' = repeat true (length line)).
  { unfold line'. destruct (_ && _); rewrite ?counts_set_ids; apply counts_all; auto. }
  assert (Hidle' : idle_unassigned t0 line -> idle_unassigned t0 line').
  { unfold line'. destruct (_ && _); auto. apply idle_set_ids. }
  rewrite Hgm in H. change (SUCCESS =? 0) with true in H. cbv iota in H.
  rewrite Hc', range_all in H by lia.
  change (mkMinMax (mm_min_pid m) (mm_max_pid m) (keep_min (mm_min_elem m) 0)
    (keep_max (mm_max_elem m) (Z.of_nat (length line) - 1)) (mm_min_turn m) (mm_max_turn m))
    with (with_line m (length line)) in H.
  rewrite required in H by (auto; lia).
  assert (Ht1 : mm_min_turn (with_line m (length line)) = t0) by exact Ht0.
  rewrite Ht1 in H.
  assert (Hp1 : mm_min_pid (with_line m (length line)) = mm_min_pid m) by reflexivity.
  assert (Hp2 : mm_max_pid (with_line m (length line)) = mm_max_pid m) by reflexivity.
  set (w := with_line m (length line)) in *.
  clearbody line'. 
  destruct ((t0 <? until) || has_storing_monitor line') eqn:Hneed.
  2:{ apply orb_false_elim in Hneed as (Hn1 & Hn2). apply Z.ltb_ge in Hn1.
      assert (job = mkJob w line' outs None 0 false false) as -> by congruence. cbn [j_ebe j_line j_outs].
      split; [lia|]. split; [auto|]. intros Hi. apply unassigned_well. intros m0 Hm0.
      pose proof (has_storing_false _ _ Hn2 Hm0).
      destruct (Hidle' Hi m0 Hm0) as [(_ & ?)|]; auto. lia. }
  destruct (job_output blank room order rolling w until line' outs) as [[line1 outs2] [[[[c k] off] un]|]] eqn:Hout;
    [|discriminate].
  unfold job_output in Hout.
  destruct (out_prepare_detailed blank room w until line' outs) as [[line3 outs3] [[[k3 off3] mt]|]] eqn:Hprep;
    [|discriminate].
  destruct (out_prepare_ok _ _ _ _ _ _ _ _ _ Hv' Hprep) as (outs1 & -> & Hmp & Hyes & Hno).
  rewrite Ht1 in Hmp, Hyes, Hno. rewrite Ht1 in Hout.
  destruct (prepare_appends _ _ _ _ _ _ _ Hmp) as (news & Enews).
  assert (Hcase : (t0 < until /\ exists c0, c = Some c0 /\
      ebe_init_detailed order (mm_min_pid w) (mm_max_pid w) (mm_min_elem w) (mm_max_elem w) t0 (until - 1) rolling = Some c0 /\
      line1 = line3 /\ outs2 = outs3 /\ k = k3 /\ off = length outs1) \/
    (until <= t0 /\ c = None /\ line1 = line3 /\ outs2 = outs3 /\ k = k3 /\ off = length outs1)).
  { destruct (Z.ltb_spec t0 until) as [Hlt|Hge].
    - left. split; auto. destruct (Hyes Hlt) as (l & _ & _ & -> & _).
      destruct Hv' as (? & ? & ?).
      replace (_ && _ && _ && _) with true in Hout
        by (symmetry; rewrite !andb_true_iff, ?Z.leb_le, ?Z.ltb_lt; lia).
      destruct (ebe_init_detailed order _ _ _ _ _ _ _) as [c0|]; [|discriminate].
      exists c0. repeat split; congruence.
    - right. split; auto. rewrite !andb_false_r in Hout. repeat split; congruence. }
  assert (Hmon : forall line4 st, has_storing_monitor line' = true ->
    job_assign_monitors outs2 t0 off line1 = (line4, st) -> st = SUCCESS -> idle_unassigned t0 line ->
    well_assigned line4 outs2 /\ forall j kk, stores_in line4 j kk -> (length outs1 <= kk)%nat).
  { intros line4 st Hs Ha -> Hi.
    assert (E : line1 = line3 /\ outs2 = outs3 /\ off = length outs1)
      by (destruct Hcase as [(_ & ? & _ & _ & ?)|(_ & _ & ?)]; tauto).
    destruct E as (-> & -> & ->). unfold job_assign_monitors in Ha.
    destruct (_ && _ && _) in Ha; [|discriminate].
    eapply prepare_assign_well; eauto. }
  destruct Hcase as [(Hlt & c0 & -> & Hinit & -> & -> & -> & ->)|(Hge & -> & -> & -> & -> & ->)].
  - destruct (Hyes Hlt) as (l & El & Ek & _ & Hsz).
    assert (Hk : nth_error outs3 k3 = Some l).
    { rewrite Enews, El, Ek. rewrite <- app_assoc. rewrite nth_error_app2 by lia.
      rewrite Nat.sub_diag. reflexivity. }
    replace (t0 <? until) with true in H by (symmetry; apply Z.ltb_lt; auto).
    unfold job_assign_ebe in H.
    destruct (Z.of_nat k3 <? Z.of_nat (length outs3)); [|discriminate].
    unfold ebe_assign in H. rewrite Hk in H. destruct l as [|x l]; [discriminate|].
    change (SUCCESS =? 0) with true in H. cbv iota in H.
    assert (Hcap : e_min_pid c0 = mm_min_pid w /\ e_max_pid c0 = mm_max_pid w /\ e_min_eid c0 = mm_min_elem w /\
      e_max_eid c0 = mm_max_elem w /\ e_min_turn c0 = t0 /\ e_max_turn c0 = until - 1 /\ e_out c0 = None).
    { unfold ebe_init_detailed in Hinit. destruct (_ && _ && _ && _ && _ && _ && _) in Hinit; [|discriminate].
      assert (c0 = mkEbe order (mm_max_pid w - mm_min_pid w + 1) (mm_max_elem w - mm_min_elem w + 1)
            (until - 1 - t0 + 1) (mm_min_pid w) (mm_max_pid w) (mm_min_elem w) (mm_max_elem w)
            t0 (until - 1) rolling None) as -> by congruence. repeat split. }
    destruct Hcap as (C1 & C2 & C3 & C4 & C5 & C6 & C7).
    assert (Hc0 : ebe_set_out (ebe_set_out c0 (Some k3)) None = c0).
    { destruct c0; cbn in *; subst; reflexivity. }
    assert (Hgoal : forall line4, (idle_unassigned t0 line -> well_assigned line4 outs3 /\
        forall j kk, stores_in line4 j kk -> (length outs1 <= kk)%nat) ->
      j_line job = line4 -> j_outs job = outs3 -> j_ebe job = Some (ebe_set_out c0 (Some k3)) ->
      (t0 < until -> exists cfg k l, j_ebe job = Some cfg /\ e_out cfg = Some k /\
     nth_error (j_outs job) k = Some l /\ Z.of_nat (length l) = ebe_capacity cfg /\
     (exists mn mx mne mxe, ebe_init_detailed order mn mx mne mxe t0 (until - 1) rolling = Some (ebe_set_out cfg None)) /\
     (forall q e t, member_sets objs idx q -> 0 <= e < Z.of_nat (length line) -> p_at_turn q <= t < until ->
        ebe_covers cfg (p_particle_id q) e t) /\
     (idle_unassigned t0 line -> forall j, ~ stores_in (j_line job) j k)) /\
      (until <= t0 -> j_ebe job = None) /\
      (idle_unassigned t0 line -> well_assigned (j_line job) (j_outs job))).
    { intros line4 Hline E1 E2 E3. rewrite E1, E2, E3. split; [|split; [lia|intros Hi; apply Hline; auto]].
      intros _. exists (ebe_set_out c0 (Some k3)), k3, (x :: l). split; [reflexivity|]. split; [reflexivity|].
      split; [exact Hk|]. split.
      { rewrite Hsz. unfold ebe_capacity. cbn [ebe_set_out e_min_pid e_max_pid e_min_eid e_max_eid e_min_turn e_max_turn].
        rewrite C1, C2, C3, C4, C5, C6. f_equal. lia. }
      split; [eexists _, _, _, _; rewrite Hc0; exact Hinit|]. split.
      { intros q e t Hm He Ht. unfold ebe_covers. cbn [ebe_set_out e_min_pid e_max_pid e_min_eid e_max_eid e_min_turn e_max_turn].
        rewrite C1, C2, C3, C4, C5, C6, Hp1, Hp2. pose proof (Hq _ Hm). pose proof (Hmin _ Hm). lia. }
      intros Hi j Hs. apply (proj2 (Hline Hi)) in Hs. rewrite El, app_length in Hs. cbn [length] in Hs. lia. }
    destruct (has_storing_monitor line') eqn:Hst.
    + destruct (job_assign_monitors outs3 t0 (length outs1) line3) as [line4 st] eqn:Ha.
      assert (st = SUCCESS) by congruence.
      assert (job = mkJob w line4 outs3 (Some (ebe_set_out c0 (Some k3))) un true (true && (st =? 0))) as -> by congruence.
      apply (Hgoal line4); auto. intros Hi. eapply Hmon; eauto.
    + assert (job = mkJob w line3 outs3 (Some (ebe_set_out c0 (Some k3))) un true (false && (SUCCESS =? 0))) as -> by congruence.
      apply (Hgoal line3); auto. intros Hi.
      destruct (unassigned_well line3 outs3 (idle_prepared _ _ _ _ _ _ _ Hmp (Hidle' Hi))) as (W1 & W2).
      split; auto. intros j kk Hs. exfalso. eapply W2; eauto.
  - replace (t0 <? until) with false in H by (symmetry; apply Z.ltb_ge; auto).
    replace (t0 <? until) with false in Hneed by (symmetry; apply Z.ltb_ge; auto). cbn [orb] in Hneed.
    rewrite Hneed in H. change (SUCCESS =? 0) with true in H. cbv iota in H.
    destruct (job_assign_monitors outs3 t0 (length outs1) line3) as [line4 st] eqn:Ha.
    assert (st = SUCCESS) by congruence.
    assert (job = mkJob w line4 outs3 None un false (true && (st =? 0))) as -> by congruence.
    cbn [j_ebe j_line j_outs]. split; [lia|]. split; [auto|]. intros Hi. eapply (Hmon line4 st); eauto.
Qed.

End Job.
