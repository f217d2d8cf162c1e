(* Proofs for C62: sets of the older track job, another output buffer for a job. *)
From Coq Require Import ZArith List Bool Lia Sorted.
From Verif Require Import Num Particle Elements EbeConfig EbeSpec EbeProofs Track ParticleSet ParticleSetProofs
  ParticleIds ParticleSpec ParticleIdsProofs Output MonitorSpec OutputSpec PrepareProofs JobProofs JobLine
  Kernels ThreadsSpec Threads JobTrack JobTrackSpec JobTrackProofs OldJob.
Import ListNotations.
Local Open Scope Z_scope.

Section Sets.
Context {T : Type}.

Lemma names_holds : forall (objs : list (pobj T)) i, proper objs ->
  names_set objs i = true <-> exists ps, holds objs i ps.
Proof.
  intros objs i Hp. unfold names_set, holds. split.
  - destruct (aget objs i) as [[p|]|] eqn:E; try discriminate. intros _.
    destruct (wf_pset_of p (Hp i p E)) as (ps & ->). exists ps. reflexivity.
  - intros (ps & ->). reflexivity.
Qed.

Lemma seen_num_of : forall ps : list (particle T), seen_num (Part (pset_of ps)) = Z.of_nat (length ps).
Proof.
  intros ps. unfold seen_num, seen. rewrite pset_of_num.
  destruct (Z.ltb_spec 0 (Z.of_nat (length ps))); lia.
Qed.

Lemma onums_some : forall (objs : list (pobj T)) l, (forall i, In i l -> exists ps, holds objs i ps) ->
  exists ns, onums (Some objs) l = Some ns /\
    Forall2 (fun i n => exists ps, holds objs i ps /\ n = Z.of_nat (length ps)) l ns.
Proof.
  intros objs l. induction l as [|i l IH]; intros H.
  - exists []. split; [reflexivity|constructor].
  - destruct IH as (ns & E & F); [intros; apply H; now right|].
    destruct (H i (or_introl eq_refl)) as (ps & Hh).
    exists (Z.of_nat (length ps) :: ns). cbn [onums onum]. unfold holds in Hh. rewrite Hh, E, seen_num_of.
    split; [reflexivity|]. constructor; [exists ps; split; [exact Hh|reflexivity]|exact F].
Qed.

Lemma oset_sets_spec : forall s idx (objs : list (pobj T)), proper objs ->
  exists s', oset_sets s idx (Some objs) = Some s' /\ StronglySorted Z.lt (o_idx s') /\
    (forall i, In i (o_idx s') <-> In i idx /\ exists ps, holds objs i ps) /\
    Forall2 (fun i n => exists ps, holds objs i ps /\ n = Z.of_nat (length ps)) (o_idx s') (o_nums s') /\
    (o_idx s' <> [] -> o_total s' = fold_right Z.add 0 (o_nums s')) /\
    (o_idx s' = [] -> o_total s' = o_total s).
Proof.
  intros s idx objs Hp. unfold oset_sets. set (l := unique (sort (filter (names_set objs) idx))).
  assert (Hs : StronglySorted Z.lt l) by (apply unique_sorted, sort_sorted).
  assert (Hin : forall i, In i l <-> In i idx /\ exists ps, holds objs i ps).
  { intros i. unfold l. rewrite unique_in, sort_in, filter_In, (names_holds objs i Hp). reflexivity. }
  clearbody l. destruct (onums_some objs l) as (ns & E & F); [intros i Hi; now apply Hin|].
  destruct l as [|i0 r].
  - eexists. split; [reflexivity|]. cbn [o_idx o_nums o_total]. repeat (split; [assumption|]).
    split; [constructor|]. split; [intros X; now elim X|reflexivity].
  - rewrite E. eexists. split; [reflexivity|]. cbn [o_idx o_nums o_total]. repeat (split; [assumption|]).
    split; [reflexivity|discriminate].
Qed.
End Sets.

Section Assign.
Context {T : Type}.
Variable blank : particle T.
Variable room : outsets T -> Z -> bool.

(* what a successful doReset consists of *)
Lemma job_reset_form : forall order rolling objs idx until line outs (j : job T), job_sets objs idx ->
  job_reset blank room false order rolling objs idx until line outs = Some (j, SUCCESS) ->
  exists m, get_min_max_sets objs idx = Some (m, SUCCESS) /\ ranges_of (member_sets objs idx) m /\ in_ranges m /\
    (0 < length line)%nat /\ forallb (@is_beam_element T) line = true /\
    let w := with_line m (length line) in
    let ne := mm_min_turn m <? until in
    let nm := has_storing_monitor line in
    if ne || nm then
      exists line1 outs1 c k off un c' line2,
        job_output blank room order rolling w until line outs = (line1, outs1, Some (c, k, off, un)) /\
        (if ne then job_assign_ebe outs1 k c = (c', SUCCESS) else c' = c) /\
        (if nm then job_assign_monitors outs1 (mm_min_turn w) off line1 = (line2, SUCCESS) else line2 = line1) /\
        j = mkJob w line2 outs1 c' un ne nm
    else j = mkJob w line outs None 0 false false.
Proof.
  intros order rolling objs idx until line outs j Hsets H.
  destruct (job_particles_ok objs idx Hsets) as (m & Hjp & Hgm & Hr).
  destruct (ranges_valid objs idx m Hsets Hr) as (Hv & _).
  exists m. split; [exact Hgm|]. split; [exact Hr|]. split; [exact Hv|].
  unfold job_reset in H. rewrite Hjp in H. change (SUCCESS =? 0) with true in H. cbn [negb] in H.
  unfold job_elements in H.
  destruct (0 <? Z.of_nat (length line)) eqn:Hl; [|discriminate].
  apply Z.ltb_lt in Hl. destruct (forallb (@is_beam_element T) line) eqn:Hbe; cbn [andb] in H; [|discriminate].
  split; [lia|]. split; [reflexivity|].
  rewrite (counts_all line Hbe), range_all in H by lia.
  rewrite Hgm in H. change (SUCCESS =? 0) with true in H. cbv iota in H.
  rewrite (counts_all line Hbe), range_all in H by lia.
  change (mkMinMax (mm_min_pid m) (mm_max_pid m) (keep_min (mm_min_elem m) 0)
    (keep_max (mm_max_elem m) (Z.of_nat (length line) - 1)) (mm_min_turn m) (mm_max_turn m))
    with (with_line m (length line)) in H.
  destruct (with_line_valid m (length line) Hv ltac:(lia)) as (Hv' & _).
  rewrite required in H by (auto; lia).
  change (mm_min_turn (with_line m (length line))) with (mm_min_turn m) in H |- *.
  cbv zeta. set (ne := mm_min_turn m <? until) in *. set (nm := has_storing_monitor line) in *.
  set (w := with_line m (length line)) in *.
  destruct (ne || nm) eqn:En; [|injection H as <-; reflexivity].
  destruct (job_output blank room order rolling w until line outs) as [[line1 outs1] [[[[c k] off] un]|]] eqn:Hout;
    [|discriminate].
  destruct (if ne then job_assign_ebe outs1 k c else (c, SUCCESS)) as [c' st1] eqn:E1.
  destruct (st1 =? 0) eqn:Es1.
  - destruct (if nm then job_assign_monitors outs1 (mm_min_turn m) off line1 else (line1, SUCCESS)) as [line2 st2] eqn:E2.
    assert (j = mkJob w line2 outs1 c' un ne (nm && (st2 =? 0)) /\ st2 = SUCCESS) as (-> & ->) by (split; congruence).
    apply Z.eqb_eq in Es1. subst st1.
    exists line1, outs1, c, k, off, un, c', line2. split; [reflexivity|].
    split; [destruct ne; [exact E1|congruence]|]. split; [destruct nm; [exact E2|congruence]|].
    change (SUCCESS =? 0) with true. rewrite andb_true_r. reflexivity.
  - exfalso. apply Z.eqb_neq in Es1. assert (st1 = SUCCESS) as -> by congruence. now apply Es1.
Qed.

Lemma storing_kept : forall (line line2 : list (element T)), length line2 = length line ->
  (forall j be, nth_error line j = Some be -> (forall m, be <> BMonitor m) -> nth_error line2 j = Some be) ->
  (forall j m, nth_error line j = Some (BMonitor m) ->
     exists m2, nth_error line2 j = Some (BMonitor m2) /\ m_num_stores m2 = m_num_stores m) ->
  has_storing_monitor line2 = has_storing_monitor line.
Proof.
  intros line. unfold has_storing_monitor. induction line as [|be line IH]; intros [|be2 line2] Hl Ho Hm; try discriminate; [reflexivity|].
  cbn [existsb]. f_equal.
  - assert (X : (forall m, be <> BMonitor m) -> be2 = be).
    { intros N. specialize (Ho 0%nat be eq_refl N). cbn [nth_error] in Ho. congruence. }
    destruct be; try (rewrite X by (intros; discriminate); reflexivity).
    destruct (Hm 0%nat _ eq_refl) as (m2 & E & En). cbn [nth_error] in E. assert (be2 = BMonitor m2) as -> by congruence.
    now rewrite En.
  - apply IH; [cbn [length] in Hl; lia| |].
    + intros j b Hj. exact (Ho (S j) b Hj).
    + intros j m Hj. exact (Hm (S j) m Hj).
Qed.

(* the turn counts of the job that asks for another output buffer *)
Definition late_until (t0 until : Z) : Z := if t0 <? until then until - t0 else 0.

Lemma assign_form : forall order rolling objs idx until line outs outs1 (j j1 : job T) t0, job_sets objs idx ->
  0 <= until ->
  (forall q, member_sets objs idx q -> t0 <= p_at_turn q) -> (exists q, member_sets objs idx q /\ p_at_turn q = t0) ->
  job_reset blank room false order rolling objs idx until line outs = Some (j, SUCCESS) ->
  job_reset blank room false order rolling objs idx (late_until t0 until) (j_line j) outs1 = Some (j1, SUCCESS) ->
  j_ebe_on j1 || j_mon_on j1 = true ->
  assign_output blank room order rolling objs idx j outs1 =
    Some (mkJob (j_ranges j1) (j_line j1) (j_outs j1) (j_ebe j1) (j_until j1) (j_ebe_on j) (j_mon_on j1), SUCCESS) /\
  j_ebe_on j = (t0 <? until) /\ j_ebe_on j1 = (t0 <? late_until t0 until).
Proof.
  intros order rolling objs idx until line outs outs1 j j1 t0 Hsets Hu Hlo Hat H1 H2 Hon.
  destruct (job_line_ok blank room false order rolling objs idx until line outs j t0 Hsets Hlo Hat H1) as (L1 & L2 & L3).
  assert (Hsm : has_storing_monitor (j_line j) = has_storing_monitor line).
  { apply storing_kept; [exact L1|exact L2|]. intros k m Hk. destruct (L3 k m Hk) as (m2 & E & (En & _) & _). eauto. }
  destruct (job_reset_form order rolling objs idx until line outs j Hsets H1) as (m & Hgm & Hr & Hv & Hll & Hbe & F1).
  destruct (job_reset_form order rolling objs idx (late_until t0 until) (j_line j) outs1 j1 Hsets H2)
    as (m' & Hgm' & _ & _ & _ & Hbe' & F2).
  assert (m' = m) by congruence. subst m'. clear Hgm'.
  assert (Ht : mm_min_turn m = t0).
  { destruct (ranges_valid objs idx m Hsets Hr) as (_ & Hq & q3 & A3 & B3).
    destruct Hat as (q4 & A4 & B4). specialize (Hlo _ A3). pose proof (Hq _ A4). lia. }
  assert (Ht0 : 0 <= t0) by (destruct Hv as (? & ? & ?); lia).
  cbv zeta in F1, F2. rewrite L1, Hsm in F2. rewrite Ht in F1, F2.
  change (mm_min_turn (with_line m (length line))) with (mm_min_turn m) in F1, F2. rewrite Ht in F1, F2.
  set (w := with_line m (length line)) in *. set (nm := has_storing_monitor line) in *.
  set (ne := t0 <? until) in *. set (u1 := late_until t0 until) in *. set (ne1 := t0 <? u1) in *.
  (* the new job has output *)
  assert (Hneed : ne1 || nm = true).
  { destruct (ne1 || nm); [reflexivity|]. rewrite F2 in Hon. discriminate Hon. }
  rewrite Hneed in F2. destruct F2 as (lineA & outsA & c & k & off & un & c' & lineB & O1 & O2 & O3 & ->).
  (* what the job before was *)
  assert (J : j_ranges j = w /\ j_ebe_on j = ne /\ j_mon_on j = nm /\ j_until j = (if ne then until else 0)).
  { destruct (ne || nm) eqn:En.
    - destruct F1 as (l1 & o1 & c1 & k1 & of1 & un1 & c1' & l2 & P1 & P2 & P3 & ->).
      cbn [j_ranges j_ebe_on j_mon_on j_until]. repeat (split; [reflexivity|]).
      unfold job_output in P1.
      destruct (out_prepare_detailed blank room w until line outs) as [[lx ox] [[[kx fx] mt]|]] eqn:Hp; [|discriminate P1].
      destruct (with_line_valid m (length line) Hv Hll) as (Hv' & _).
      destruct (out_prepare_ok blank room w until line outs lx ox kx fx mt Hv' Hp) as (ob & _ & _ & Q1 & Q2).
      change (mm_min_turn w) with (mm_min_turn m) in *. rewrite Ht in P1, Q1, Q2.
      destruct ne eqn:Ene.
      + unfold ne in Ene. apply Z.ltb_lt in Ene. destruct (Q1 Ene) as (l & _ & _ & -> & _).
        assert (C : (0 <? until) && (0 <=? t0) && (t0 <=? until - 1) && (t0 <? until) = true).
        { clear - Ene Ht0. rewrite !andb_true_iff, !Z.ltb_lt, !Z.leb_le. lia. }
        rewrite C in P1. clear C. destruct (ebe_init_detailed _ _ _ _ _ _ _ _) in P1; [|discriminate P1]. congruence.
      + unfold ne in Ene. rewrite Ene, !andb_false_r in P1. congruence.
    - subst j. apply orb_false_elim in En as (-> & Enm). cbn [j_ranges j_ebe_on j_mon_on j_until]. rewrite Enm. auto. }
  destruct J as (J1 & J2 & J3 & J4).
  assert (J5 : ebe_turns j = u1).
  { unfold ebe_turns, u1, late_until. rewrite J1, J4. change (mm_min_turn w) with (mm_min_turn m). rewrite Ht.
    rewrite (proj2 (Z.leb_le 0 t0)) by exact Ht0. unfold ne. rewrite andb_true_r.
    destruct (Z.ltb_spec t0 until); [now rewrite (proj2 (Z.ltb_lt t0 until))|].
    rewrite (proj2 (Z.ltb_ge t0 0)) by exact Ht0. reflexivity. }
  split; [|split; [exact J2|reflexivity]].
  unfold assign_output. cbv zeta. rewrite J5, J1, J2, J3, Hgm. change (SUCCESS =? 0) with true. cbv iota.
  rewrite (counts_all (j_line j) Hbe'), range_all by (clear - Hll L1; lia). cbv iota. rewrite L1.
  change (mkMinMax (mm_min_pid m) (mm_max_pid m) (keep_min (mm_min_elem m) 0)
    (keep_max (mm_max_elem m) (Z.of_nat (length line) - 1)) (mm_min_turn m) (mm_max_turn m)) with w.
  destruct (with_line_valid m (length line) Hv Hll) as (Hv' & _).
  rewrite required by (solve [exact Hv' | rewrite L1; exact Hll]). change (mm_min_turn w) with (mm_min_turn m). rewrite Ht, Hsm.
  fold nm. fold ne1. rewrite Hneed. rewrite O1. change (mm_min_turn w) with (mm_min_turn m) in O3. rewrite ?Ht in O3.
  assert (Hne1 : ne1 = true -> ne = true).
  { unfold ne1, ne, u1, late_until. destruct (Z.ltb_spec t0 until); [reflexivity|]. intros X. apply Z.ltb_lt in X. clear - X Ht0. lia. }
  assert (Hst : forall ln, match (if nm then job_assign_monitors outsA t0 off lineA else (lineA, SUCCESS)) with
    | (l, st) => ln = (l, (if nm then st =? 0 else nm), st) end -> ln = (lineB, nm, SUCCESS)).
  { intros ln. destruct nm; [rewrite O3|subst lineB]; intros ->; reflexivity. }
  cbn [j_ranges j_line j_outs j_ebe j_until j_ebe_on j_mon_on].
  assert (M : (if nm && nm then let '(line0, st) := job_assign_monitors outsA t0 off lineA in (line0, st =? 0, st)
               else (lineA, nm, SUCCESS)) = (lineB, nm, SUCCESS)).
  { apply Hst. destruct nm; cbn [andb]; [destruct (job_assign_monitors outsA t0 off lineA)|]; reflexivity. }
  rewrite M. change (SUCCESS =? 0) with true. cbn [andb].
  destruct ne1 eqn:E1.
  - rewrite (Hne1 eq_refl). cbn [andb]. rewrite O2.
    unfold job_assign_ebe in O2. destruct c as [c|]; [|discriminate O2].
    destruct (Z.of_nat k <? Z.of_nat (length outsA)); [|discriminate O2]. reflexivity.
  - subst c'. cbn [andb]. reflexivity.
Qed.

(* nothing to record: the assignment fails and the job stays *)
Lemma assign_none : forall order rolling objs idx until line outs outs1 (j : job T) t0, job_sets objs idx ->
  0 <= until ->
  (forall q, member_sets objs idx q -> t0 <= p_at_turn q) -> (exists q, member_sets objs idx q /\ p_at_turn q = t0) ->
  job_reset blank room false order rolling objs idx until line outs = Some (j, SUCCESS) ->
  until - t0 <= t0 -> j_mon_on j = false ->
  assign_output blank room order rolling objs idx j outs1 = Some (j, FAILURE).
Proof.
  intros order rolling objs idx until line outs outs1 j t0 Hsets Hu Hlo Hat H1 Hle Hmon.
  destruct (job_line_ok blank room false order rolling objs idx until line outs j t0 Hsets Hlo Hat H1) as (L1 & L2 & L3).
  assert (Hsm : has_storing_monitor (j_line j) = has_storing_monitor line).
  { apply storing_kept; [exact L1|exact L2|]. intros k m Hk. destruct (L3 k m Hk) as (m2 & E & (En & _) & _). eauto. }
  destruct (job_reset_form order rolling objs idx until line outs j Hsets H1) as (m & Hgm & Hr & Hv & Hll & Hbe & F1).
  assert (Ht : mm_min_turn m = t0).
  { destruct (ranges_valid objs idx m Hsets Hr) as (_ & Hq & q3 & A3 & B3).
    destruct Hat as (q4 & A4 & B4). specialize (Hlo _ A3). pose proof (Hq _ A4). lia. }
  assert (Ht0 : 0 <= t0) by (destruct Hv as (? & ? & ?); lia).
  cbv zeta in F1. rewrite Ht in F1.
  change (mm_min_turn (with_line m (length line))) with (mm_min_turn m) in F1. rewrite Ht in F1.
  set (w := with_line m (length line)) in *.
  assert (J : j_ranges j = w /\ has_storing_monitor line = false /\ (j_until j = until \/ j_until j = 0)).
  { destruct ((t0 <? until) || has_storing_monitor line) eqn:En.
    - destruct F1 as (l1 & o1 & c1 & k1 & of1 & un1 & c1' & l2 & P1 & P2 & P3 & ->).
      cbn [j_ranges j_mon_on j_until] in *. split; [reflexivity|]. split; [exact Hmon|].
      unfold job_output in P1.
      destruct (out_prepare_detailed blank room w until line outs) as [[lx ox] [[[kx fx] mt]|]]; [|discriminate P1].
      destruct (_ && _ && _ && _) in P1; [destruct (ebe_init_detailed _ _ _ _ _ _ _ _) in P1; [|discriminate P1]|].
      + left. congruence.
      + right. congruence.
    - subst j. apply orb_false_elim in En as (_ & ->). auto. }
  destruct J as (J1 & J2 & J3).
  assert (J5 : ebe_turns j <= t0).
  { unfold ebe_turns. rewrite J1. change (mm_min_turn w) with (mm_min_turn m). rewrite Ht.
    destruct (_ && _); [|exact Ht0]. destruct J3 as [-> | ->]; clear - Hle Ht0; lia. }
  assert (Hbe' : map (@counts T) (j_line j) = map (@counts T) line).
  { apply ThreadsProofs.nth_error_ext_len. intros k. rewrite !nth_error_map.
    destruct (nth_error line k) as [be|] eqn:E.
    - destruct be; try (rewrite (L2 k _ E) by (intros; discriminate); reflexivity).
      destruct (L3 k _ E) as (m2 & -> & _). reflexivity.
    - apply nth_error_None in E. rewrite (proj2 (nth_error_None _ _)) by (clear - E L1; lia). reflexivity. }
  unfold assign_output. cbv zeta. rewrite Hgm. change (SUCCESS =? 0) with true. cbv iota.
  rewrite Hbe', (counts_all line Hbe), range_all by (clear - Hll L1; lia). cbv iota.
  change (mkMinMax (mm_min_pid m) (mm_max_pid m) (keep_min (mm_min_elem m) 0)
    (keep_max (mm_max_elem m) (Z.of_nat (length line) - 1)) (mm_min_turn m) (mm_max_turn m)) with w.
  destruct (with_line_valid m (length line) Hv Hll) as (Hv' & _).
  rewrite required by (solve [exact Hv' | rewrite L1; exact Hll]). change (mm_min_turn w) with (mm_min_turn m). rewrite Ht, Hsm, J2.
  rewrite (proj2 (Z.ltb_ge t0 (ebe_turns j))) by exact J5. reflexivity.
Qed.
End Assign.
