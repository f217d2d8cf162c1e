(* Theorems for C23, C26-C28, C46: the records tracking leaves in the output. *)
From Coq Require Import ZArith List Bool Lia.
From Verif Require Import Num Particle Elements EbeConfig EbeSpec EbeProofs Track TrackSpec DispatchProofs
  ParticleSet ParticleSetProofs ParticleIds ParticleSpec ParticleIdsProofs Output MonitorSpec MonitorProofs
  OutputSpec PrepareProofs JobProofs JobLine Records MonitorRun EbeRun ExampleNum RecordCases.
Import ListNotations.
Local Open Scope Z_scope.

Lemma not_stored : forall T (lattice : list (element T)) k,
  (forall j, ~ stores_in lattice j k) -> Forall (not_set k) lattice.
Proof.
  intros T lattice k H. apply Forall_forall. intros be Hin. destruct be; try exact Logic.I.
  cbn. intros Hm. apply In_nth_error in Hin as (j & Hj). apply (H j). exists m. auto.
Qed.

Lemma exist_in : forall T (lattice : list (element T)) outs,
  (forall j k, stores_in lattice j k -> nth_error outs k <> None) -> sets_exist lattice outs.
Proof.
  intros T lattice outs H m k Hin Hk. apply In_nth_error in Hin as (j & Hj). apply (H j). exists m; auto.
Qed.

(* ------------------------------------------------------------------ *)
(* C23: element-by-element tracking of an active particle ends like plain tracking, with
   the same status and the same contents of all other output sets. *)
Theorem C23_same_dynamics : forall T (N : NumOps T) c cfg k lattice n p outs,
  e_out cfg = Some k -> nth_error outs k <> None -> lattice <> [] ->
  (forall be, In be lattice -> failing_silently c be = false) ->
  (forall j, ~ stores_in lattice j k) ->
  p_state p = 1 -> 0 <= p_particle_id p -> 0 <= p_at_element_id p -> 0 <= p_at_turn p ->
  (forall p1 o1 s1, until_turn N c lattice n p outs = Ok (p1, o1, s1) ->
     exists o2, elem_by_elem N c cfg lattice n p outs = Ok (p1, o2, s1) /\
       forall k', k' <> k -> nth_error o2 k' = nth_error o1 k') /\
  (until_turn N c lattice n p outs = Undef <-> elem_by_elem N c cfg lattice n p outs = Undef).
Proof.
  intros T N c cfg k lattice n p outs Ek Hk Hne Hf Hns H1 H2 H3 H4.
  destruct (nth_error outs k) as [l|] eqn:El; [|congruence].
  assert (Htr : tracked p) by (unfold tracked; auto).
  pose proof (ebe_same N c cfg k outs l El lattice n p Hne (proj2 (Forall_forall _ _) Hf)
                (not_stored _ _ _ Hns) Htr Ek) as H.
  unfold same_result in H. split.
  - intros p1 o1 s1 E. rewrite E in H.
    destruct (elem_by_elem N c cfg lattice n p outs) as [[[p2 o2] s2]| |]; try contradiction.
    destruct H as (-> & -> & _ & Ho). exists o2. auto.
  - split; intros E; rewrite E in H.
    + destruct (elem_by_elem N c cfg lattice n p outs) as [[[? ?] ?]| |]; auto; contradiction.
    + destruct (until_turn N c lattice n p outs) as [[[? ?] ?]| |]; auto; contradiction.
Qed.
Print Assumptions C23_same_dynamics.

(* The record for element j of turn t holds the particle as plain tracking has it in front
   of that element: if the configuration holds that triple, and (rolling) fewer turns
   follow than it keeps. *)
Theorem C23_record : forall T (N : NumOps T) c cfg k l lattice n p outs p' outs' st t j q o,
  ebe_made cfg -> e_out cfg = Some k -> nth_error outs k = Some l -> ebe_capacity cfg <= Z.of_nat (length l) ->
  lattice <> [] -> (forall be, In be lattice -> failing_silently c be = false) ->
  (forall j, ~ stores_in lattice j k) ->
  p_state p = 1 -> 0 <= p_particle_id p -> 0 <= p_at_element_id p -> 0 <= p_at_turn p ->
  elem_by_elem N c cfg lattice n p outs = Ok (p', outs', st) ->
  arrives (nzero N) (dispatch N c) lattice p outs t j q o -> t < n -> (j < length lattice)%nat ->
  (if e_rolling cfg
   then e_min_pid cfg <= p_particle_id p <= e_max_pid cfg /\
        e_min_eid cfg <= p_at_element_id p + Z.of_nat j <= e_max_eid cfg /\
        e_min_turn cfg <= t /\ n <= t + ebe_turns cfg
   else ebe_covers cfg (p_particle_id p) (p_at_element_id p + Z.of_nat j) t) ->
  slot outs' k (ebe_store_index cfg (p_particle_id p) (p_at_element_id p + Z.of_nat j) t) = Some q.
Proof.
  intros T N c cfg k l lattice n p outs p' outs' st t j q o Hm Ek Hl Hcap Hne Hf Hns H1 H2 H3 H4 H Ha Ht Hj Hlast.
  destruct (lasting_index cfg (p_particle_id p) (p_at_element_id p) j t n Hm Hlast) as (Hi & Hlater).
  eapply (ebe_record N c cfg k outs l Hl lattice n p); eauto.
  - apply Forall_forall; auto.
  - apply not_stored; auto.
  - unfold tracked; auto.
  - lia.
Qed.
Print Assumptions C23_record.

Definition ebe_case : ebe_config := mkEbe 0 2 3 4 7 8 0 2 0 3 false (Some 1%nat).
Definition ebe_line : list (element Z) := zline (mon 2 1 1 7 8 false true (Some 0%nat)).
Definition ebe_outs : outsets Z := [zset 4; zset 24].

Example C23_case : ebe_made ebe_case /\ ebe_capacity ebe_case = 24 /\
  (forall j, ~ stores_in ebe_line j 1) /\ (forall be, In be ebe_line -> failing_silently Zconf be = false) /\
  exists p' outs' st, elem_by_elem ZOps Zconf ebe_case ebe_line 3 zpart ebe_outs = Ok (p', outs', st) /\
    slot outs' 1 (ebe_store_index ebe_case 7 1 1) =
      Some (mkParticle 1 938 1 7 6500 2  12 17 3 4  (-48) 0 0 1 1 1 1  7 1 1 1).
Proof.
  split; [exists 7, 8, 0, 2, 0, 3, false, (Some 1%nat); eexists; split; vm_compute; reflexivity|].
  split; [reflexivity|]. split.
  { intros [|[|[|[|j]]]] (m & H & Hm); cbn in H; try discriminate. injection H as <-. discriminate. }
  split; [intros be [<-|[<-|[<-|[]]]]; reflexivity|].
  eexists _, _, _. split; [vm_compute; reflexivity|vm_compute; reflexivity].
Qed.

(* An element whose map is disabled fails without marking the particle as lost: plain
   tracking loses the particle there, element-by-element tracking leaves it active. *)
Theorem C23_disabled_refuted : exists (c : config Z) cfg lattice p outs p1 o1 s1 p2 o2 s2,
  e_out cfg = Some 0%nat /\ lattice <> [] /\ p_state p = 1 /\
  until_turn ZOps c lattice 1 p outs = Ok (p1, o1, s1) /\
  elem_by_elem ZOps c cfg lattice 1 p outs = Ok (p2, o2, s2) /\ p_state p1 = 0 /\ p_state p2 = 1.
Proof.
  exists {| c_aperture := AAlways; c_min_drift := None; c_x_limit := 1000; c_y_limit := 1000;
            c_tricub := MDisabled; c_bb4d := MDisabled; c_bb6d := MEnabled; c_sc := MEnabled |}.
  exists (mkEbe 0 2 1 1 7 8 0 0 0 0 false (Some 0%nat)).
  exists [BTriCubData (TriCub.mkTriCubData 0 0 0 0 0 0 0 0 0 1 1 1 [])]. exists zpart, [zset 2].
  do 6 eexists. split; [reflexivity|]. split; [discriminate|]. split; [reflexivity|].
  split; [vm_compute; reflexivity|]. split; [vm_compute; reflexivity|]. split; reflexivity.
Qed.
Print Assumptions C23_disabled_refuted.

(* ------------------------------------------------------------------ *)
(* C26: the configuration of a track job that has been set up for element-by-element
   output until turn N covers every particle, every element and every turn up to N-1, and
   its output set has exactly one place per record. *)
Theorem C26_job : forall T (blank : particle T) room again rolling objs idx until line outs job t0,
  job_sets objs idx ->
  (forall q, member_sets objs idx q -> t0 <= p_at_turn q) ->
  (exists q, member_sets objs idx q /\ p_at_turn q = t0) -> t0 < until ->
  job_reset blank room again ORDER_DEFAULT rolling objs idx until line outs = Some (job, SUCCESS) ->
  exists cfg k l, j_ebe job = Some cfg /\ ebe_made cfg /\ e_rolling cfg = rolling /\
    e_min_turn cfg = t0 /\ e_max_turn cfg = until - 1 /\
    (forall q e t, member_sets objs idx q -> 0 <= e < Z.of_nat (length line) -> p_at_turn q <= t < until ->
       ebe_covers cfg (p_particle_id q) e t) /\
    e_out cfg = Some k /\ nth_error (j_outs job) k = Some l /\ Z.of_nat (length l) = ebe_capacity cfg.
Proof.
  intros T blank room again rolling objs idx until line outs job t0 Hs H1 H2 Hlt H.
  destruct (proj1 (job_ok blank room again _ rolling objs idx until line outs job t0 Hs H1 H2 H) Hlt)
    as (cfg & k & l & A1 & A2 & A3 & A4 & (mn & mx & mne & mxe & A5) & A6 & _).
  exists cfg, k, l.
  assert (Hc : cfg = ebe_set_out (ebe_set_out cfg None) (Some k)) by (destruct cfg; cbn in *; subst; reflexivity).
  split; auto. split; [exists mn, mx, mne, mxe, t0, (until - 1), rolling, (Some k), (ebe_set_out cfg None); auto|].
  assert (e_rolling cfg = rolling /\ e_min_turn cfg = t0 /\ e_max_turn cfg = until - 1) as (B1 & B2 & B3).
  { pose proof (f_equal (fun o => match o with Some c => Some (e_rolling c, e_min_turn c, e_max_turn c)
      | None => None end) A5) as E. unfold ebe_init_detailed in E.
    match type of E with context [if ?b then _ else _] => destruct b; [|discriminate] end.
    cbn [e_rolling e_min_turn e_max_turn ebe_set_out] in E.
    assert (F : forall x y z a b c : Z, forall r1 r2 : bool, Some (r1, a, b) = Some (r2, x, y) -> r2 = r1 /\ x = a /\ y = b)
      by (intros; repeat split; congruence).
    exact (F _ _ 0 _ _ 0 _ _ E). }
  repeat (split; auto).
Qed.
Print Assumptions C26_job.

(* no element-by-element output if there is no turn left *)
Theorem C26_job_none : forall T (blank : particle T) room again order rolling objs idx until line outs job t0,
  job_sets objs idx ->
  (forall q, member_sets objs idx q -> t0 <= p_at_turn q) ->
  (exists q, member_sets objs idx q /\ p_at_turn q = t0) -> until <= t0 ->
  job_reset blank room again order rolling objs idx until line outs = Some (job, SUCCESS) ->
  j_ebe job = None.
Proof.
  intros T blank room again order rolling objs idx until line outs job t0 Hs H1 H2 Hlt H.
  exact (proj1 (proj2 (job_ok blank room again _ rolling objs idx until line outs job t0 Hs H1 H2 H)) Hlt).
Qed.
Print Assumptions C26_job_none.

Lemma zobjs_sets : job_sets zobjs [0].
Proof.
  assert (M : forall q, member_sets zobjs [0] q -> q = zpart \/ q = zpart8).
  { intros q (i & p & [<-|[]] & Hp & Hq). injection Hp as <-. apply member_of in Hq as [<-|[<-|[]]]; auto. }
  split; [discriminate|]. split; [cbn; lia|]. split.
  { intros i [<-|[]]. eexists. split; [reflexivity|]. split; [apply pset_of_wf|reflexivity]. }
  split; intros q Hq; apply M in Hq as [->| ->]; vm_compute; repeat split; discriminate.
Qed.

Example C26_case : job_sets zobjs [0] /\
  (forall q, member_sets zobjs [0] q -> 0 <= p_at_turn q) /\
  (exists q, member_sets zobjs [0] q /\ p_at_turn q = 0) /\
  exists job, job_reset zblank always_room false ORDER_DEFAULT false zobjs [0] 4
    (zline (mon 2 1 1 (-1) (-1) false true None)) [] = Some (job, SUCCESS) /\
    j_ebe job = Some (mkEbe 0 2 3 4 7 8 0 2 0 3 false (Some 0%nat)) /\
    map (@length _) (j_outs job) = [24; 4]%nat.
Proof.
  split; [exact zobjs_sets|]. split.
  { intros q Hq. apply zobjs_sets in Hq. apply Hq. }
  split.
  { exists zpart. split; [|reflexivity]. exists 0, (pset_of [zpart; zpart8]). split; [left; auto|].
    split; [reflexivity|]. exists 0. reflexivity. }
  eexists. split; [vm_compute; reflexivity|]. split; reflexivity.
Qed.

(* The element ids a job covers: the number of objects that count as elements; none of them
   has a smaller id than reported; if they follow each other without gaps, none has a larger
   one. *)
Theorem C26_element_range : forall types mn mx start mn' mx' n,
  find_element_range types mn mx start = Some (mn', mx', n) ->
  n = Z.of_nat (length (filter (fun b : bool => b) types)) /\
  (forall k, nth_error types k = Some true -> mn' <= start + Z.of_nat k) /\
  (exists k, nth_error types k = Some true /\ mn' = Z.min mn (start + Z.of_nat k) /\
     mx' = Z.max mx (start + Z.of_nat k + n - 1)) /\
  ((forall i j k, (i <= j <= k)%nat -> nth_error types i = Some true -> nth_error types k = Some true ->
      nth_error types j = Some true) ->
   forall k, nth_error types k = Some true -> start + Z.of_nat k <= mx').
Proof. exact element_range. Qed.
Print Assumptions C26_element_range.

Example C26_element_range_case :
  find_element_range [false; false; true; true; false] 9 1 5 = Some (7, 8, 2).
Proof. reflexivity. Qed.

(* With an object that does not count between two elements the largest id is too small. *)
Theorem C26_element_range_refuted : exists types mn mx start mn' mx' n k,
  mx <= mn /\ find_element_range types mn mx start = Some (mn', mx', n) /\
  nth_error types k = Some true /\ mx' < start + Z.of_nat k.
Proof.
  exists [true; false; true], 0, 0, 0, 0, 1, 2, 2%nat. split; [lia|]. split; [reflexivity|]. split; [reflexivity|]. lia.
Qed.
Print Assumptions C26_element_range_refuted.

(* ElemByElemConfig_init compares the number of turns with the smallest element id: turn 4
   is not covered although tracking until turn 5 was asked for. *)
Theorem C26_init_refuted : exists (p : pset Z) line start until c q,
  pset_wf p /\ member p q /\ p_at_turn q <= 4 < until /\
  ebe_init p line start until = Some (c, SUCCESS) /\
  ~ ebe_covers c (p_particle_id q) start 4.
Proof.
  exists (pset_of [set_at_element_id 10 zpart]), (zline (mon 0 0 1 0 0 false true None)), 10, 5.
  eexists. exists (set_at_element_id 10 zpart).
  split; [apply pset_of_wf|]. split; [exists 0; reflexivity|]. split; [cbn; lia|].
  split; [vm_compute; reflexivity|]. unfold ebe_covers. cbn. lia.
Qed.
Print Assumptions C26_init_refuted.

(* ... and for a particle before turn 0 it reports success without a configuration. *)
Theorem C26_init_preset_refuted : exists (p : pset Z) line,
  pset_wf p /\ 0 < ps_num p /\ ebe_init p line 0 5 = Some (ebe_preset, SUCCESS).
Proof.
  exists (pset_of [set_at_turn (-1) zpart]), (zline (mon 0 0 1 0 0 false true None)).
  split; [apply pset_of_wf|]. split; [reflexivity|]. vm_compute. reflexivity.
Qed.
Print Assumptions C26_init_preset_refuted.

(* ------------------------------------------------------------------ *)
(* C27, turn-ordered monitors: every stored sample of every particle the monitor accepts
   has a place in the output set, ... *)
Theorem C27_inside : forall m t i pid, mon_ready m -> m_turn_ordered m = true ->
  sample m t i -> mon_keeps m i -> mon_accepts m pid ->
  0 <= monitor_store_index m t pid < mon_slots m.
Proof. exact in_slots. Qed.
Print Assumptions C27_inside.

(* ... shared only with samples of the same particle that are a multiple of num_stores
   away, ... *)
Theorem C27_collision : forall m t1 i1 p1 t2 i2 p2, mon_ready m -> m_turn_ordered m = true ->
  sample m t1 i1 -> mon_keeps m i1 -> mon_accepts m p1 ->
  sample m t2 i2 -> mon_keeps m i2 -> mon_accepts m p2 ->
  (monitor_store_index m t1 p1 = monitor_store_index m t2 p2 <-> p1 = p2 /\ same_store m i1 i2).
Proof. exact collision. Qed.
Print Assumptions C27_collision.

(* ... which never happens without rolling. *)
Theorem C27_distinct : forall m t1 i1 p1 t2 i2 p2, mon_ready m -> m_turn_ordered m = true ->
  m_rolling m = false ->
  sample m t1 i1 -> mon_keeps m i1 -> mon_accepts m p1 ->
  sample m t2 i2 -> mon_keeps m i2 -> mon_accepts m p2 ->
  monitor_store_index m t1 p1 = monitor_store_index m t2 p2 -> p1 = p2 /\ t1 = t2.
Proof.
  intros m t1 i1 p1 t2 i2 p2 Hr Ho Hroll S1 K1 A1 S2 K2 A2 E.
  apply (collision m t1 i1 p1 t2 i2 p2) in E as (E1 & E2); auto. split; auto.
  assert (i1 = i2) as <- by (apply (same_store_first m); auto; [apply S1|apply S2]).
  destruct S1 as (_ & ->), S2 as (_ & ->). reflexivity.
Qed.
Print Assumptions C27_distinct.

(* Other turns are not stored. *)
Theorem C27_not_sampled : forall m t pid, mon_ready m -> (forall i, ~ sample m t i) ->
  monitor_store_index m t pid = -1.
Proof. exact not_sampled. Qed.
Print Assumptions C27_not_sampled.

Theorem C27_not_kept : forall m t i pid, mon_ready m -> sample m t i -> ~ mon_keeps m i ->
  monitor_store_index m t pid = -1.
Proof. exact not_kept. Qed.
Print Assumptions C27_not_kept.

(* Tracking: the particle the monitor sees at sample i1 is found in the output, unless the
   particle passed the monitor again for a sample that shares the place. *)
Theorem C27_record : forall T (N : NumOps T) c lattice n p outs p' outs' st jm m k l t1 i1 q1 o1,
  p_state p = 1 ->
  until_turn N c lattice n p outs = Ok (p', outs', st) ->
  nth_error lattice jm = Some (BMonitor m) ->
  mon_ready m -> m_turn_ordered m = true ->
  m_out m = Some k -> nth_error outs k = Some l -> mon_slots m <= Z.of_nat (length l) ->
  (forall j, stores_in lattice j k -> j = jm) ->
  mon_accepts m (p_particle_id p) ->
  arrives (nzero N) (dispatch N c) lattice p outs t1 jm q1 o1 -> t1 < n ->
  sample m t1 i1 -> mon_keeps m i1 ->
  (forall t2 i2 q2 o2, sample m t2 i2 -> mon_keeps m i2 -> i1 < i2 -> t2 < n ->
     arrives (nzero N) (dispatch N c) lattice p outs t2 jm q2 o2 -> ~ same_store m i1 i2) ->
  slot outs' k (mon_particles m * (i1 mod m_num_stores m) + (p_particle_id p - m_min_id m)) = Some q1.
Proof.
  intros T N c lattice n p outs p' outs' st jm m k l t1 i1 q1 o1 H1 H2 H3 H4 H5 H6 H7 H8 H9 H10 H11 H12 H13 H14 H15.
  pose proof (index_sample m t1 i1 (p_particle_id p) H4 H13 H14) as E. rewrite H5 in E. rewrite <- E.
  eapply monitor_run; eauto. intros j m' Hj Hm'. apply H9. exists m'. auto.
Qed.
Print Assumptions C27_record.

Definition mon_case : monitor := mon 2 1 2 7 8 true true (Some 0%nat).

(* a rolling monitor with two stores, samples at turns 1, 3, 5: after turn 5 the record of
   turn 1 has been replaced *)
Example C27_case : mon_ready mon_case /\ sample mon_case 3 1 /\ mon_keeps mon_case 1 /\
  mon_accepts mon_case 7 /\ mon_slots mon_case = 4 /\ monitor_store_index mon_case 3 7 = 2 /\
  same_store mon_case 0 2 /\
  exists p' o' st, until_turn ZOps Zconf (zline mon_case) 6 zpart [zset 4] = Ok (p', o', st) /\
    map (fun q => (p_particle_id q, p_at_turn q)) (nth 0 o' []) = [(7, 5); (-1, 0); (7, 3); (-1, 0)].
Proof.
  split; [vm_compute; repeat split; discriminate|]. split; [vm_compute; split; [discriminate|reflexivity]|].
  split; [left; reflexivity|]. split; [vm_compute; split; discriminate|]. split; [reflexivity|].
  split; [reflexivity|]. split; [exists (-1); reflexivity|].
  do 3 eexists. split; [vm_compute; reflexivity|]. vm_compute. reflexivity.
Qed.

(* Particle-ordered monitors use the number of particles where the number of stores is
   needed: places are right only for one particle or as many stores as particles. *)
Theorem C27_particle_ordered_partial : forall m, mon_ready m -> m_turn_ordered m = false ->
  ((forall t i p, sample m t i -> mon_keeps m i -> mon_accepts m p ->
      0 <= monitor_store_index m t p < mon_slots m) /\
   (forall t1 i1 p1 t2 i2 p2, sample m t1 i1 -> mon_keeps m i1 -> mon_accepts m p1 ->
      sample m t2 i2 -> mon_keeps m i2 -> mon_accepts m p2 ->
      monitor_store_index m t1 p1 = monitor_store_index m t2 p2 -> p1 = p2 /\ same_store m i1 i2)
   <-> mon_particles m = 1 \/ mon_particles m = m_num_stores m).
Proof. exact particle_order_ok. Qed.
Print Assumptions C27_particle_ordered_partial.

Theorem C27_particle_ordered_refuted : exists m, mon_ready m /\ m_turn_ordered m = false /\
  (exists t1 i1 p1 t2 i2 p2, sample m t1 i1 /\ mon_keeps m i1 /\ mon_accepts m p1 /\
     sample m t2 i2 /\ mon_keeps m i2 /\ mon_accepts m p2 /\ p1 <> p2 /\ t1 <> t2 /\
     monitor_store_index m t1 p1 = monitor_store_index m t2 p2).
Proof.
  exists (mon 3 0 1 7 8 false false None).
  split; [vm_compute; repeat split; discriminate|]. split; [reflexivity|].
  exists 0, 0, 8, 2, 2, 7. vm_compute.
  split; [split; [discriminate|reflexivity]|]. split; [right; reflexivity|]. split; [split; discriminate|].
  split; [split; [discriminate|reflexivity]|]. split; [right; reflexivity|]. split; [split; discriminate|].
  split; [discriminate|]. split; [discriminate|]. reflexivity.
Qed.
Print Assumptions C27_particle_ordered_refuted.

(* ------------------------------------------------------------------ *)
(* C28: tracking changes no output set but those of the monitors of the line (and of the
   element-by-element configuration), and the size of none. *)
Theorem C28_until_turn : forall T (N : NumOps T) c lattice n p outs p' outs' st,
  until_turn N c lattice n p outs = Ok (p', outs', st) ->
  map (@length _) outs' = map (@length _) outs /\
  forall k, (forall j, ~ stores_in lattice j k) -> nth_error outs' k = nth_error outs k.
Proof.
  intros. split; [eapply shape_until; exact H|].
  intros k Hk. eapply frame_until; [apply not_stored; exact Hk|exact H].
Qed.
Print Assumptions C28_until_turn.

Theorem C28_elem_by_elem : forall T (N : NumOps T) c cfg lattice n p outs p' outs' st,
  elem_by_elem N c cfg lattice n p outs = Ok (p', outs', st) ->
  map (@length _) outs' = map (@length _) outs /\
  forall k, (forall j, ~ stores_in lattice j k) -> e_out cfg <> Some k ->
    nth_error outs' k = nth_error outs k.
Proof.
  intros. split; [eapply shape_ebe; exact H|].
  intros k Hk He. eapply frame_ebe; [apply not_stored; exact Hk|exact He|exact H].
Qed.
Print Assumptions C28_elem_by_elem.

Theorem C28_line : forall T (N : NumOps T) c lattice fin p outs p' outs' st,
  line N c lattice fin p outs = Ok (p', outs', st) ->
  map (@length _) outs' = map (@length _) outs /\
  forall k, (forall j, ~ stores_in lattice j k) -> nth_error outs' k = nth_error outs k.
Proof.
  intros. split; [eapply shape_line; exact H|].
  intros k Hk. eapply frame_line; [apply not_stored; exact Hk|exact H].
Qed.
Print Assumptions C28_line.

(* If the sets exist, undefined behaviour (a write outside an output set among it) can only
   come from an element that is not a beam monitor. *)
Theorem C28_defined : forall T (N : NumOps T) c cfg lattice n fin p outs,
  (forall j k, stores_in lattice j k -> nth_error outs k <> None) ->
  (forall k, e_out cfg = Some k -> nth_error outs k <> None) ->
  until_turn N c lattice n p outs = Undef \/ elem_by_elem N c cfg lattice n p outs = Undef \/
  line N c lattice fin p outs = Undef ->
  exists be q o, In be lattice /\ (forall m, be <> BMonitor m) /\ dispatch N c be q o = None.
Proof.
  intros T N c cfg lattice n fin p outs Hs He H. apply exist_in in Hs.
  assert (exists be q o, In be lattice /\ is_monitor be = false /\ dispatch N c be q o = None)
    as (be & q & o & H1 & H2 & H3).
  { destruct H as [H|[H|H]]; [eapply until_undef|eapply ebe_undef|eapply line_undef]; eauto. }
  exists be, q, o. split; auto. split; auto. intros m ->. discriminate.
Qed.
Print Assumptions C28_defined.

(* The sets exist: preparing and assigning output gives every monitor that stores from the
   first turn on a set of its own, of exactly the size it needs. *)
Theorem C28_prepare : forall T (blank : particle T) room mn mx ft line outs line1 outs1 line2,
  mon_prepare blank room mn mx ft line outs = (line1, outs1, SUCCESS) ->
  mon_assign outs1 ft (length outs) line1 = (line2, SUCCESS) ->
  length line2 = length line /\
  (forall j be, nth_error line j = Some be -> (forall m, be = BMonitor m -> ~ takes_part ft m) ->
     nth_error line2 j = Some be) /\
  (forall j m, nth_error line j = Some (BMonitor m) -> takes_part ft m ->
     exists m2 k l, nth_error line2 j = Some (BMonitor m2) /\ same_settings mn mx m m2 /\
       m_out m2 = Some k /\ (length outs <= k)%nat /\ nth_error outs1 k = Some l /\
       mon_slots m2 = Z.of_nat (length l)) /\
  (forall j1 j2 m1 m2 k, nth_error line j1 = Some (BMonitor m1) -> takes_part ft m1 ->
     nth_error line j2 = Some (BMonitor m2) -> takes_part ft m2 ->
     stores_in line2 j1 k -> stores_in line2 j2 k -> j1 = j2).
Proof. intros. eapply prepare_assign; eauto. Qed.
Print Assumptions C28_prepare.

(* Assigning what has been prepared fails exactly if a monitor that takes no part comes
   after all that do (finding: such a line is legitimate). *)
Theorem C28_assign_iff : forall T (blank : particle T) room mn mx ft line outs line1 outs1,
  mon_prepare blank room mn mx ft line outs = (line1, outs1, SUCCESS) ->
  (snd (mon_assign outs1 ft (length outs) line1) = SUCCESS <->
   forall j m, nth_error line j = Some (BMonitor m) -> ~ takes_part ft m ->
     exists j' m', (j < j')%nat /\ nth_error line j' = Some (BMonitor m') /\ takes_part ft m').
Proof. intros. eapply prepare_assign_iff; eauto. Qed.
Print Assumptions C28_assign_iff.

(* A track job: if monitors that take no part refer to no output, then after setting up the
   job every output set a monitor refers to exists, is large enough and is not shared, and
   the element-by-element set is none of them. *)
Theorem C28_job : forall T (blank : particle T) room again order rolling objs idx until line outs job t0,
  job_sets objs idx ->
  (forall q, member_sets objs idx q -> t0 <= p_at_turn q) ->
  (exists q, member_sets objs idx q /\ p_at_turn q = t0) ->
  (forall m, In (BMonitor m) line -> takes_part t0 m \/ m_out m = None) ->
  job_reset blank room again order rolling objs idx until line outs = Some (job, SUCCESS) ->
  (forall j m k, nth_error (j_line job) j = Some (BMonitor m) -> m_out m = Some k ->
     (exists l, nth_error (j_outs job) k = Some l /\ mon_slots m = Z.of_nat (length l)) /\
     (forall j', stores_in (j_line job) j' k -> j' = j)) /\
  (forall cfg, j_ebe job = Some cfg -> exists k l, e_out cfg = Some k /\
     nth_error (j_outs job) k = Some l /\ forall j, ~ stores_in (j_line job) j k).
Proof.
  intros T blank room again order rolling objs idx until line outs job t0 Hs H1 H2 Hidle H.
  destruct (job_ok blank room again order rolling objs idx until line outs job t0 Hs H1 H2 H) as (A & B & C).
  split; [exact (C Hidle)|]. intros cfg Hc.
  destruct (Z.lt_ge_cases t0 until) as [Hlt|Hge].
  - destruct (A Hlt) as (cfg' & k & l & E1 & E2 & E3 & _ & _ & _ & E4).
    assert (cfg' = cfg) as -> by congruence. exists k, l. auto.
  - rewrite (B Hge) in Hc. discriminate.
Qed.
Print Assumptions C28_job.

Example C28_case : exists job, job_reset zblank always_room false ORDER_DEFAULT false zobjs [0] 4
    (zline (mon 2 1 1 (-1) (-1) false true None) ++ [BMonitor (mon 3 0 2 (-1) (-1) true true None)]) [] =
    Some (job, SUCCESS) /\ stores_in (j_line job) 1 1 /\ stores_in (j_line job) 3 2 /\
  map (@length _) (j_outs job) = [32; 4; 6]%nat.
Proof.
  eexists. split; [vm_compute; reflexivity|]. split; [|split].
  - eexists. split; reflexivity.
  - eexists. split; reflexivity.
  - reflexivity.
Qed.

(* The setup of a job keeps the beam line: other elements are untouched, monitors keep how
   often they store; each monitor that takes part gets an output and records every particle of
   the job; one that takes no part keeps its output, and its particles unless the job is set
   up again. *)
Theorem C28_job_monitors : forall T (blank : particle T) room again order rolling objs idx until line outs job t0,
  job_sets objs idx ->
  (forall q, member_sets objs idx q -> t0 <= p_at_turn q) ->
  (exists q, member_sets objs idx q /\ p_at_turn q = t0) ->
  job_reset blank room again order rolling objs idx until line outs = Some (job, SUCCESS) ->
  length (j_line job) = length line /\
  (forall j be, nth_error line j = Some be -> (forall m, be <> BMonitor m) ->
     nth_error (j_line job) j = Some be) /\
  (forall j m, nth_error line j = Some (BMonitor m) ->
     exists m2, nth_error (j_line job) j = Some (BMonitor m2) /\
       (m_num_stores m2 = m_num_stores m /\ m_start m2 = m_start m /\ m_skip m2 = m_skip m /\
        m_rolling m2 = m_rolling m /\ m_turn_ordered m2 = m_turn_ordered m) /\
       (takes_part t0 m -> exists k, m_out m2 = Some k) /\
       (takes_part t0 m \/ again = true -> forall q, member_sets objs idx q ->
          m_min_id m2 <= p_particle_id q <= m_max_id m2) /\
       (~ takes_part t0 m -> again = false -> m2 = m) /\
       (~ takes_part t0 m -> m_out m2 = m_out m)).
Proof. intros. eapply job_line_ok; eauto. Qed.
Print Assumptions C28_job_monitors.

Example C28_job_monitors_case : exists job, job_reset zblank always_room true ORDER_DEFAULT false zobjs [0] 4
    (zline (mon 0 1 1 (-1) (-1) false true None) ++ [BMonitor (mon 3 0 2 (-1) (-1) true true None)]) [] =
    Some (job, SUCCESS) /\
  nth_error (j_line job) 1 = Some (BMonitor (mon 0 1 1 7 8 false true None)) /\
  nth_error (j_line job) 3 = Some (BMonitor (mon 3 0 2 7 8 true true (Some 1%nat))).
Proof. eexists. split; [vm_compute; reflexivity|]. split; reflexivity. Qed.

(* A monitor that comes after the others but takes no part makes the setup fail. *)
Theorem C28_trailing_refuted : exists (line : list (element Z)) line1 outs1,
  (forall m, In (BMonitor m) line -> m_out m = None) /\
  mon_prepare zblank always_room 7 8 0 line [] = (line1, outs1, SUCCESS) /\
  (exists j, nth_error line j = Some (BMonitor (mon 2 0 1 (-1) (-1) false true None))) /\
  snd (mon_assign outs1 0 0 line1) = FAILURE.
Proof.
  exists [BMonitor (mon 2 0 1 (-1) (-1) false true None); BMonitor (mon 0 0 1 (-1) (-1) false true None)].
  eexists _, _. split; [intros m [E|[E|[]]]; injection E as <-; reflexivity|].
  split; [vm_compute; reflexivity|]. split; [exists 0%nat; reflexivity|]. vm_compute. reflexivity.
Qed.
Print Assumptions C28_trailing_refuted.

(* If all monitors that store start before the particles' first turn, no output is prepared
   for them and setting up the job fails. *)
Theorem C28_late_start_refuted : exists line job,
  job_reset zblank always_room false ORDER_DEFAULT false zobjs5 [0] 8 line [] = Some (job, FAILURE) /\
  (forall be, In be line -> is_beam_element be = true) /\
  exists m, In (BMonitor m) line /\ m_start m < 5 /\ 0 < m_num_stores m /\ m_rolling m = true.
Proof.
  exists (zline (mon 2 1 1 (-1) (-1) true true None)). eexists.
  split; [vm_compute; reflexivity|]. split; [intros be [<-|[<-|[<-|[]]]]; reflexivity|].
  eexists. split; [right; left; reflexivity|]. cbn. repeat split; lia.
Qed.
Print Assumptions C28_late_start_refuted.

(* The hypothesis on idle monitors in C28_job is needed: a monitor that took part before
   keeps its old address when it takes no part any more.  Here it shares the set of the
   element-by-element output after setting up the job again for particles at turn 5. *)
Theorem C28_stale_refuted : exists line0 job1 job2 cfg k,
  job_reset zblank always_room false ORDER_DEFAULT false zobjs [0] 0 line0 [] = Some (job1, SUCCESS) /\
  (forall m, In (BMonitor m) line0 -> m_out m = None) /\
  job_reset zblank always_room true ORDER_DEFAULT false zobjs5 [0] 8 (j_line job1) [] = Some (job2, SUCCESS) /\
  j_ebe job2 = Some cfg /\ e_out cfg = Some k /\ exists j, stores_in (j_line job2) j k.
Proof.
  exists [BMonitor (mon 2 1 1 (-1) (-1) true true None); BMonitor (mon 2 6 1 (-1) (-1) true true None)].
  do 4 eexists. split; [vm_compute; reflexivity|].
  split; [intros m [E|[E|[]]]; injection E as <-; reflexivity|].
  split; [vm_compute; reflexivity|]. split; [reflexivity|]. split; [reflexivity|].
  exists 0%nat. eexists. split; reflexivity.
Qed.
Print Assumptions C28_stale_refuted.

(* A particle-ordered monitor whose places run over the end of its set marks a healthy
   particle as lost. *)
Theorem C28_particle_ordered_refuted : exists m p p' o' st,
  mon_ready m /\ mon_accepts m (p_particle_id p) /\ p_state p = 1 /\
  until_turn ZOps Zconf [BMonitor m] 1 p [zset (Z.to_nat (mon_slots m))] = Ok (p', o', st) /\
  p_state p' = 0.
Proof.
  exists (mon 1 0 1 7 9 false false (Some 0%nat)), (set_particle_id 9 zpart).
  do 3 eexists. split; [vm_compute; repeat split; discriminate|].
  split; [vm_compute; split; discriminate|]. split; [reflexivity|].
  split; [vm_compute; reflexivity|]. reflexivity.
Qed.
Print Assumptions C28_particle_ordered_refuted.

(* ------------------------------------------------------------------ *)
(* C46: BeamMonitor_has_turn_stored tells, for turns below the number of turns tracked,
   which samples are (still) stored. *)
Theorem C46_has_turn_stored : forall m n t i, mon_ready m -> 0 <= m_start m -> sample m t i -> t < n ->
  (mon_has_turn_stored m t n = true <->
   mon_keeps m i /\
   forall i2, sample m (m_start m + i2 * m_skip m) i2 -> m_start m + i2 * m_skip m < n -> i < i2 ->
     mon_keeps m i2 -> ~ same_store m i i2).
Proof. exact has_turn_sample. Qed.
Print Assumptions C46_has_turn_stored.

Theorem C46_not_sampled : forall m n t, mon_ready m -> (forall i, ~ sample m t i) ->
  mon_has_turn_stored m t n = false.
Proof. exact has_turn_other. Qed.
Print Assumptions C46_not_sampled.

Theorem C46_future : forall m n t, 0 <= n < t -> mon_has_turn_stored m t n = false.
Proof. exact has_turn_future. Qed.
Print Assumptions C46_future.

(* The first turn that has not been tracked is reported as stored. *)
Theorem C46_last_refuted : exists m n, mon_ready m /\ mon_has_turn_stored m n n = true.
Proof.
  exists (mon 4 0 1 7 8 false true (Some 0%nat)), 3. split; [vm_compute; repeat split; discriminate|].
  reflexivity.
Qed.
Print Assumptions C46_last_refuted.

Example C46_case : mon_ready mon_case /\ mon_has_turn_stored mon_case 3 6 = true /\
  mon_has_turn_stored mon_case 1 6 = false.
Proof. split; [vm_compute; repeat split; discriminate|]. split; reflexivity. Qed.
