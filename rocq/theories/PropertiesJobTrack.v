(* Theorems for C58: the particle sets of a job, tracking with a CPU job. *)
From Coq Require Import ZArith List Bool Lia Sorted.
From Verif Require Import Num Particle Elements EbeConfig Track ParticleSet ParticleSetProofs ParticleIds Output
  Kernels ThreadsSpec Threads JobTrack JobTrackSpec JobTrackProofs ExampleNum RecordCases.
Import ListNotations.
Local Open Scope Z_scope.

Section P.
Context {T : Type} (N : NumOps T) (c : config T).
Implicit Types (objs : list (pobj T)) (j : tjob T) (m : mode T).

Lemma chosen_sel : forall s idx objs s' st, proper objs -> (forall i, In i idx -> 0 <= i) ->
  set_sets s idx objs = (s', st) ->
  StronglySorted Z.lt (q_idx s') /\ (forall i, In i (q_idx s') <-> chosen idx objs i) /\
  (st = SUCCESS <-> exists i, chosen idx objs i).
Proof.
  intros s idx objs s' st Hp Hi H.
  destruct (set_sets_spec s idx objs s' st Hp Hi H) as (sel & E1 & E2 & E3 & Hs & Hin & Hst & _).
  assert (forall i, In i (q_idx s') <-> chosen idx objs i) as Hc.
  { intros i. rewrite E1, in_map_iff. split.
    - intros (((i' & b) & e) & <- & Hx). apply Hin in Hx as (A & ps & B & C & _). cbn [fst]. split; eauto.
    - intros (A & ps & B & C). eexists (i, _, _). split; [reflexivity|]. apply Hin. split; [exact A|].
      exists ps. repeat split; eauto. }
  split; [exact Hs|]. split; [exact Hc|]. rewrite Hst. split.
  - intros Hne. destruct sel as [|a sel]; [congruence|]. exists (fst (fst a)). apply Hc. rewrite E1. now left.
  - intros (i & Hx) ->. apply Hc in Hx. rewrite E1 in Hx. destruct Hx.
Qed.

Lemma run_sets : forall j r m objs o, asks j r m -> q_idx (fst j) <> [] ->
  cpu_run N c j r objs o = cpu_track (alone N c m) (q_idx (fst j)) objs o.
Proof.
  intros (s & jb) r m objs o Ha Hne. cbn [fst snd] in *. destruct r as [turn|turn|b e fin]; cbn [asks cpu_run fst snd] in *.
  - now subst.
  - destruct Ha as (E1 & cfg & E2 & ->). now rewrite E1, E2.
  - destruct Ha as ((B1 & B2) & B3 & ->). unfold line_range.
    rewrite (proj2 (Z.leb_le 0 b)), (proj2 (Z.leb_le b e)), (proj2 (Z.leb_le e _)) by lia. cbn [andb].
    destruct (q_idx s); [congruence|reflexivity].
Qed.
End P.

(* Asking for sets by index: the job takes those which name a particle set with particles,
   in ascending order and each once; it fails if and only if there is none. *)
Theorem C58_selected : forall T s idx (objs : list (pobj T)) s' st, proper objs -> (forall i, In i idx -> 0 <= i) ->
  set_sets s idx objs = (s', st) ->
  StronglySorted Z.lt (q_idx s') /\ (forall i, In i (q_idx s') <-> chosen idx objs i) /\
  (st = SUCCESS <-> exists i, chosen idx objs i).
Proof. exact @chosen_sel. Qed.
Print Assumptions C58_selected.

(* ... and knows where the particles of its sets are among all particles of the buffer *)
Theorem C58_counts : forall T s idx (objs : list (pobj T)) s', proper objs -> (forall i, In i idx -> 0 <= i) ->
  set_sets s idx objs = (s', SUCCESS) ->
  q_total s' = particles_in objs /\
  q_total_in_sets s' = fold_right Z.add 0 (map (num_in_set s') (map Z.of_nat (List.seq 0 (length (q_idx s'))))) /\
  (forall k i, set_index s' k = Some i -> exists ps, holds objs i ps /\
     num_in_set s' k = Z.of_nat (length ps) /\
     begin_offset s' k = Some (particles_in (firstn (Z.to_nat i) objs)) /\
     end_offset s' k = Some (particles_in (firstn (Z.to_nat i) objs) + Z.of_nat (length ps))).
Proof.
  intros T s idx objs s' Hp Hi H.
  destruct (set_sets_spec s idx objs s' SUCCESS Hp Hi H) as (sel & E1 & E2 & E3 & _ & Hin & _ & Hc).
  destruct (Hc eq_refl) as (C1 & C2 & _).
  assert (Hk : forall k a, nth_error sel k = Some a -> exists ps, holds objs (fst (fst a)) ps /\
    snd a - snd (fst a) = Z.of_nat (length ps) /\ 0 < Z.of_nat (length ps) /\
    num_in_set s' (Z.of_nat k) = Z.of_nat (length ps) /\
    set_index s' (Z.of_nat k) = Some (fst (fst a)) /\
    begin_offset s' (Z.of_nat k) = Some (particles_in (firstn (Z.to_nat (fst (fst a))) objs)) /\
    end_offset s' (Z.of_nat k) = Some (particles_in (firstn (Z.to_nat (fst (fst a))) objs) + Z.of_nat (length ps))).
  { intros k [[i b] e] Ha. destruct (proj1 (Hin i b e) (nth_error_In _ _ Ha)) as (A & ps & B & C & D & E).
    cbn [fst snd]. assert (0 < Z.of_nat (length ps)) as Hpos by (destruct ps; [congruence|cbn [length]; lia]).
    assert (k < length sel)%nat as Hlt by (apply nth_error_Some; congruence).
    exists ps. unfold num_in_set, num_sets, set_index, begin_offset, end_offset.
    rewrite E1, E2, E3, !map_length, !ThreadsLaunch.aget_nth, !nth_error_map, Ha. cbn [option_map fst snd].
    rewrite (proj2 (Z.ltb_lt (Z.of_nat k) (Z.of_nat (length sel)))) by lia. rewrite !Z.eqb_refl. cbn [andb].
    rewrite (proj2 (Z.ltb_lt b e)) by lia. split; [exact C|].
    repeat (split; [try lia; try congruence|]). rewrite <- D. congruence. }
  split; [exact C1|]. split.
  - rewrite C2. unfold sum. f_equal. rewrite E1, map_length, map_map.
    apply ThreadsProofs.nth_error_ext_len. intros k. rewrite !nth_error_map.
    destruct (nth_error sel k) as [a|] eqn:Ea.
    + assert (k < length sel)%nat as Hlt by (apply nth_error_Some; congruence).
      rewrite (nth_error_nth' _ 0%nat) by (rewrite List.seq_length; lia). rewrite seq_nth by lia. cbn [option_map].
      destruct (Hk k a Ea) as (ps & _ & X1 & _ & X2 & _). rewrite Nat.add_0_l. congruence.
    + apply nth_error_None in Ea. rewrite (proj2 (nth_error_None _ _)) by (rewrite List.seq_length; lia). reflexivity.
  - intros k i Hs. unfold set_index, aget in Hs. destruct (Z.leb_spec 0 k); [|discriminate].
    rewrite E1, nth_error_map in Hs. destruct (nth_error sel (Z.to_nat k)) as [a|] eqn:Ea; [|discriminate].
    destruct (Hk _ a Ea) as (ps & X1 & X2 & X3 & X4 & X5 & X6 & X7). rewrite Z2Nat.id in * by lia.
    cbn [option_map] in Hs. assert (i = fst (fst a)) by congruence. subst i. exists ps. auto.
Qed.
Print Assumptions C58_counts.

(* Tracking with a job made for sets of a particles buffer, in any of the three ways, at any
   later time while the sets are still particle sets: every particle of a chosen set ends as
   tracking it alone gives, and nothing else in the buffer changes; success if and only if
   all particles succeed. *)
Theorem C58_run : forall T (N : NumOps T) c blank room idx objs0 until line outs (j : tjob T) st0 r m objs o objs' o' st,
  proper objs0 -> (forall i, In i idx -> 0 <= i) -> (exists i, chosen idx objs0 i) ->
  create blank room (Some idx) objs0 until line outs = Some (j, st0) ->
  (forall i, chosen idx objs0 i -> chosen idx objs i) -> asks j r m ->
  cpu_run N c j r objs o = Ok (objs', o', st) ->
  tracks_exactly N c m o (chosen idx objs0) objs objs' st.
Proof.
  intros T N c blank room idx objs0 until line outs j st0 r m objs o objs' o' st Hp Hi Hex Hc Hall Ha.
  unfold create in Hc. destruct (set_sets new_sets idx objs0) as [s sx] eqn:Es. cbn [fst] in Hc.
  destruct (job_reset blank room false ORDER_DEFAULT true objs0 (q_idx s) until line outs) as [[jb st1]|]; [|discriminate].
  assert (j = (s, jb)) by congruence. subst j. clear Hc.
  destruct (chosen_sel new_sets idx objs0 s sx Hp Hi Es) as (Hs & Hin & _).
  assert (q_idx s <> []) as Hne. { destruct Hex as (i & Hx). apply Hin in Hx. intros E. rewrite E in Hx. destruct Hx. }
  rewrite (run_sets N c _ _ _ objs o Ha Hne). cbn [fst]. intros E.
  destruct (cpu_track_result N c m (q_idx s) objs o objs' o' st Hne (ss_lt_nodup _ Hs)) with (2 := E)
    as (A & B & C & D).
  { intros i Hx. apply Hin in Hx. now apply Hall in Hx as (_ & Hx). }
  split; [exact A|]. split; [intros i Hx; apply B; now rewrite Hin|]. split.
  - intros i ps Hx. apply C. now apply Hin.
  - intros Hz. apply D. intros i ps p p' s1 Hx. apply Hz. now apply Hin.
Qed.
Print Assumptions C58_run.

(* A job made without set indices: set 0 *)
Theorem C58_run_default : forall T (N : NumOps T) c blank room objs0 until line outs (j : tjob T) st0 r m objs o objs' o' st,
  create blank room None objs0 until line outs = Some (j, st0) ->
  (exists ps, ps <> [] /\ holds objs 0 ps) -> asks j r m ->
  cpu_run N c j r objs o = Ok (objs', o', st) ->
  tracks_exactly N c m o (fun i => i = 0) objs objs' st.
Proof.
  intros T N c blank room objs0 until line outs j st0 r m objs o objs' o' st Hc Hh Ha.
  unfold create in Hc.
  destruct (job_reset blank room false ORDER_DEFAULT true objs0 (q_idx new_sets) until line outs) as [[jb st1]|]; [|discriminate].
  assert (j = (new_sets, jb)) by congruence. subst j. clear Hc.
  rewrite (run_sets N c _ _ _ objs o Ha) by discriminate. cbn [fst new_sets default_sets q_idx]. intros E.
  destruct (cpu_track_result N c m [0] objs o objs' o' st) with (4 := E) as (A & B & C & D).
  { discriminate. }
  { repeat constructor. intros []. }
  { intros i [<-|[]]. exact Hh. }
  split; [exact A|]. split; [intros i Hx; apply B; intros [H|[]]; auto|]. split.
  - intros i ps Hx. apply C. left. auto.
  - intros Hz. apply D. intros i ps p p' s1 [<-|[]]. now apply Hz.
Qed.
Print Assumptions C58_run_default.

(* tracking is defined if tracking each particle alone is *)
Theorem C58_defined : forall T (N : NumOps T) c (j : tjob T) r m objs o,
  NoDup (q_idx (fst j)) -> asks j r m ->
  (forall i, In i (q_idx (fst j)) -> exists ps, ps <> [] /\ holds objs i ps) ->
  (forall i ps p, In i (q_idx (fst j)) -> holds objs i ps -> In p ps -> exists p' s, tracked N c m o p p' s) ->
  exists objs' o' st, cpu_run N c j r objs o = Ok (objs', o', st).
Proof.
  intros T N c j r m objs o Hnd Ha Hall Hd. destruct (q_idx (fst j)) as [|i0 r0] eqn:Es.
  - destruct r; cbn [cpu_run]; rewrite Es; cbn [cpu_track]; eauto. destruct Ha as (E1 & cfg & E2 & _). rewrite E1, E2. eauto.
  - rewrite (run_sets N c j r m objs o Ha) by (rewrite Es; discriminate). rewrite Es.
    destruct (cpu_track_defined N c m (i0 :: r0) objs o Hnd Hall) as ([[objs' o'] st] & E).
    + intros i ps p H1 H2 H3. destruct (Hd i ps p H1 H2 H3) as (p' & s & o2 & E). eauto.
    + eauto.
Qed.
Print Assumptions C58_defined.

(* the outputs are those of the particles of the sets run as threads in some order (they are
   the same for every order if every particle has its own records, C21) *)
Theorem C58_output : forall T (N : NumOps T) c (j : tjob T) r m objs o objs' o' st ps,
  q_idx (fst j) <> [] -> NoDup (q_idx (fst j)) -> asks j r m -> members objs (q_idx (fst j)) ps ->
  cpu_run N c j r objs o = Ok (objs', o', st) ->
  exists ps' sched pool', members objs' (q_idx (fst j)) ps' /\
    exec sched (map (thread N c m) ps) o = Ok (pool', o') /\ finished pool' /\
    forall k q, nth_error ps' k = Some q -> exists s, nth_error pool' k = Some (Ret (q, s)).
Proof.
  intros T N c j r m objs o objs' o' st ps Hne Hnd Ha Hm. rewrite (run_sets N c j r m objs o Ha Hne).
  apply (cpu_track_schedule N c m); auto.
Qed.
Print Assumptions C58_output.

(* element-by-element tracking without prepared output, and tracking without sets: failure,
   nothing changes *)
Theorem C58_not_prepared : forall T (N : NumOps T) c (j : tjob T) turn objs o,
  j_ebe_on (snd j) = false \/ j_ebe (snd j) = None ->
  cpu_run N c j (TrackElemByElem turn) objs o = Ok (objs, o, FAILURE).
Proof.
  intros T N c j turn objs o H. cbn [cpu_run]. destruct (j_ebe (snd j)); [|reflexivity].
  destruct H as [->|H]; [reflexivity|discriminate].
Qed.
Print Assumptions C58_not_prepared.

Theorem C58_no_sets : forall T (N : NumOps T) c (j : tjob T) r objs o,
  q_idx (fst j) = [] -> cpu_run N c j r objs o = Ok (objs, o, FAILURE).
Proof.
  intros T N c j r objs o H. destruct r; cbn [cpu_run]; rewrite H; cbn [cpu_track]; auto.
  destruct (j_ebe (snd j)); [destruct (j_ebe_on (snd j))|]; reflexivity.
Qed.
Print Assumptions C58_no_sets.

(* Any number of requests: objects which are not sets of the job are never touched, and the
   sets keep their number of particles. *)
Theorem C58_session : forall T (N : NumOps T) c (j : tjob T) rs objs o objs' o',
  NoDup (q_idx (fst j)) -> (forall r, In r rs -> exists m, asks j r m) ->
  (forall i, In i (q_idx (fst j)) -> exists ps, ps <> [] /\ holds objs i ps) ->
  session N c j rs objs o objs' o' ->
  length objs' = length objs /\ (forall i, ~ In i (q_idx (fst j)) -> aget objs' i = aget objs i) /\
  (forall i ps, In i (q_idx (fst j)) -> holds objs i ps -> exists ps', holds objs' i ps' /\ length ps' = length ps).
Proof.
  intros T N c j rs objs o objs' o' Hnd Hr Hall Hs. revert Hr Hall. induction Hs as [objs o|r rs objs o objs1 o1 st objs2 o2 E Hs IH]; intros Hr Hall.
  - split; [reflexivity|]. split; [reflexivity|]. eauto.
  - destruct (q_idx (fst j)) as [|i0 r0] eqn:Es.
    + rewrite (C58_no_sets _ N c j r objs o Es) in E. assert (objs1 = objs /\ o1 = o) as (-> & ->) by (split; congruence).
      apply IH; [intros; apply Hr; now right|auto].
    + destruct (Hr r (or_introl eq_refl)) as (m & Ha).
      rewrite (run_sets N c j r m objs o Ha) in E by (rewrite Es; discriminate). rewrite Es in E.
      destruct (cpu_track_result N c m (i0 :: r0) objs o objs1 o1 st) with (4 := E) as (A & B & C & _); auto; [discriminate|].
      destruct IH as (A2 & B2 & C2).
      * intros; apply Hr; now right.
      * intros i Hi. destruct (Hall i Hi) as (ps & Hne & Hh). destruct (C i ps Hi Hh) as (ps' & Hh' & Hl & _).
        exists ps'. split; [intros ->; destruct ps; [congruence|discriminate]|exact Hh'].
      * split; [lia|]. split; [intros i Hi; rewrite B2, B by auto; reflexivity|].
        intros i ps Hi Hh. destruct (C i ps Hi Hh) as (ps1 & Hh1 & Hl1 & _).
        destruct (C2 i ps1 Hi Hh1) as (ps2 & Hh2 & Hl2). exists ps2. split; [exact Hh2|lia].
Qed.
Print Assumptions C58_session.

(* Resetting a job for sets gives the sets asked for; resetting it without naming sets but
   with the particles buffer it has keeps its sets. *)
Theorem C58_reset : forall T (blank : particle T) room s same idx objs until line outs s' j st,
  proper objs -> (forall i, In i idx -> 0 <= i) -> idx <> [] ->
  reset_sets blank room s same idx objs until line outs = Some (s', j, st) ->
  StronglySorted Z.lt (q_idx s') /\ (forall i, In i (q_idx s') <-> chosen idx objs i) /\
  (st = SUCCESS -> exists i, chosen idx objs i).
Proof.
  intros T blank room s same idx objs until line outs s' j st Hp Hi Hne. unfold reset_sets.
  set (keep := keeps_sets same s idx). set (s1 := if keep then s else clear_sets s). clearbody s1 keep.
  destruct idx as [|i0 r0]; [congruence|]. set (idx := i0 :: r0) in *.
  destruct (set_sets s1 idx objs) as [s2 st2] eqn:Es.
  destruct (chosen_sel s1 idx objs s2 st2 Hp Hi Es) as (A & B & C).
  destruct (Z.eqb_spec st2 0) as [E0|E0].
  - destruct (job_reset blank room keep ORDER_DEFAULT true objs (q_idx s2) until line outs) as [[jb st3]|]; [|discriminate].
    intros H. assert (s' = s2) by congruence. subst. split; [exact A|]. split; [exact B|]. intros _. now apply C.
  - intros H. assert (s' = s2 /\ st = st2) as (-> & ->) by (split; congruence). split; [exact A|]. split; [exact B|].
    intros Hs. now apply C.
Qed.
Print Assumptions C58_reset.

Theorem C58_reset_same : forall T (blank : particle T) room s objs until line outs s' j st,
  reset_plain blank room s true objs until line outs = Some (s', j, st) -> s' = s.
Proof.
  intros T blank room s objs until line outs s' j st. unfold reset_plain.
  destruct (job_reset blank room true ORDER_DEFAULT true objs (q_idx s) until line outs) as [[jb st3]|]; [|discriminate].
  intros H. congruence.
Qed.
Print Assumptions C58_reset_same.

(* Resetting a job for another particles buffer, with sets of which some are chosen: it
   becomes what a new job for this buffer and these sets is, whatever it was before. *)
Theorem C58_reset_other : forall T (blank : particle T) room s idx objs until line outs,
  proper objs -> (forall i, In i idx -> 0 <= i) -> (exists i, chosen idx objs i) ->
  reset_sets blank room s false idx objs until line outs =
  match create blank room (Some idx) objs until line outs with
  | Some (s', j, st) => Some (s', Some j, st)
  | None => None
  end.
Proof.
  intros T blank room s idx objs until line outs Hp Hi (i & Hc). unfold reset_sets, create.
  assert (keeps_sets false s idx = false) as -> by reflexivity. change (clear_sets s) with new_sets.
  destruct idx as [|i0 r0]; [exfalso; destruct Hc as (X & _); contradiction|]. set (idx := i0 :: r0) in *.
  destruct (set_sets new_sets idx objs) as [s2 st2] eqn:Es. cbn [fst].
  destruct (chosen_sel new_sets idx objs s2 st2 Hp Hi Es) as (A & B & C).
  assert (st2 = SUCCESS) as -> by (apply C; eauto). change (SUCCESS =? 0) with true. cbn iota.
  destruct (job_reset blank room false ORDER_DEFAULT true objs (q_idx s2) until line outs) as [[jb st3]|]; reflexivity.
Qed.
Print Assumptions C58_reset_other.

(* ------------------------------------------------------------------ *)
(* a buffer with two particle sets, an object of another kind and an empty set; sets 3, 0,
   0, 1 and 9 are asked for: 0 and 3 are chosen *)
Definition sets_case : list (pobj Z) :=
  [Part (pset_of [zpart; zpart8]); Other; Part (pset_of []); Part (pset_of [set_particle_id 9 zpart])].
Definition line_case : list (element Z) := zlattice.

Example C58_example_proper : proper sets_case.
Proof.
  intros i p H. unfold aget in H. destruct (0 <=? i); [|discriminate].
  destruct (Z.to_nat i) as [|[|[|[|k]]]]; cbn in H; try discriminate; try (injection H as <-; apply pset_of_wf).
  destruct k; discriminate.
Qed.

Example C58_example : exists j objs' o' st,
  create zblank always_room (Some [3; 0; 0; 1; 9]) sets_case 0 line_case [] = Some (j, SUCCESS) /\
  q_idx (fst j) = [0; 3] /\ num_in_set (fst j) 0 = 2 /\ num_in_set (fst j) 1 = 1 /\
  q_total (fst j) = 3 /\ q_total_in_sets (fst j) = 3 /\ begin_offset (fst j) 1 = Some 2 /\
  asks j (TrackUntil 2) (UntilTurn line_case 2) /\
  cpu_run ZOps Zconf j (TrackUntil 2) sets_case [] = Ok (objs', o', st) /\ st = SUCCESS /\
  aget objs' 0 <> aget sets_case 0 /\ aget objs' 3 <> aget sets_case 3.
Proof.
  do 4 eexists. split; [vm_compute; reflexivity|]. cbn [fst snd q_idx].
  split; [reflexivity|]. split; [reflexivity|]. split; [reflexivity|]. split; [reflexivity|]. split; [reflexivity|].
  split; [reflexivity|]. split; [reflexivity|]. split; [vm_compute; reflexivity|]. split; [reflexivity|].
  split; vm_compute; discriminate.
Qed.

(* A job made without set indices tracks set 0 but says that it has no particles. *)
Theorem C58_default_counts_refuted : exists objs j (ps : list (particle Z)),
  create zblank always_room None objs 0 line_case [] = Some (j, SUCCESS) /\
  set_index (fst j) 0 = Some 0 /\ holds objs 0 ps /\ length ps = 2%nat /\
  num_in_set (fst j) 0 = 0 /\ q_total (fst j) = 0 /\ q_total_in_sets (fst j) = 0.
Proof.
  exists sets_case. do 2 eexists. split; [vm_compute; reflexivity|]. cbn [fst snd].
  split; [reflexivity|]. split; [reflexivity|]. repeat split.
Qed.
Print Assumptions C58_default_counts_refuted.

(* A job made for a set which does not exist is set up without an error, as if for set 0;
   it then refuses to track anything. *)
Theorem C58_invalid_refuted : exists (objs : list (pobj Z)) j,
  create zblank always_room (Some [7]) objs 0 line_case [] = Some (j, SUCCESS) /\
  j_ranges (snd j) = j_ranges (snd (fst (match create zblank always_room None objs 0 line_case [] with
                                         | Some r => r | None => (j, FAILURE) end))) /\
  q_idx (fst j) = [] /\ cpu_run ZOps Zconf j (TrackUntil 2) objs [] = Ok (objs, [], FAILURE).
Proof.
  exists sets_case. eexists. split; [vm_compute; reflexivity|]. split; [vm_compute; reflexivity|].
  split; reflexivity.
Qed.
Print Assumptions C58_invalid_refuted.

(* Resetting a job without naming sets, with another particles buffer, forgets the sets: a
   job for set 3 tracks set 0 afterwards. *)
Theorem C58_reset_refuted : exists (objs : list (pobj Z)) j s' j' objs' o',
  create zblank always_room (Some [3]) objs 0 line_case [] = Some (j, SUCCESS) /\
  reset_plain zblank always_room (fst j) false objs 0 line_case [] = Some (s', Some j', SUCCESS) /\
  q_idx (fst j) = [3] /\ q_idx s' = [0] /\
  cpu_run ZOps Zconf (s', j') (TrackUntil 2) objs [] = Ok (objs', o', SUCCESS) /\
  aget objs' 3 = aget objs 3 /\ aget objs' 0 <> aget objs 0.
Proof.
  exists sets_case. do 5 eexists. split; [vm_compute; reflexivity|]. split; [vm_compute; reflexivity|].
  split; [reflexivity|]. split; [reflexivity|]. split; [vm_compute; reflexivity|]. split; [reflexivity|].
  vm_compute. discriminate.
Qed.
Print Assumptions C58_reset_refuted.

(* selectParticleSet: with the C interface, the job is reset with its own buffers and the set
   asked for *)
Theorem C58_select : forall j num ready i c, jp_p j = None -> jp_e j = None -> jp_o j = None ->
  select_call j num ready i = Some c ->
  jp_pc j = Some (rc_particles c) /\ jp_ec j = Some (rc_elements c) /\ rc_set c = i /\ i < num /\ ready = true.
Proof.
  intros j num ready i c H1 H2 H3. unfold select_call. rewrite H2, H3.
  destruct (jp_pc j) as [pc|]; [|discriminate]. destruct (jp_ec j) as [ec|]; [|discriminate].
  destruct ready; [|discriminate]. cbn [andb]. destruct (Z.ltb_spec i num); [|discriminate].
  destruct (has (jp_oc j) && negb (owns_output j)); intros [= <-]; cbn; repeat split; auto.
Qed.
Print Assumptions C58_select.

(* With the C++ interface and an output buffer, it is reset with the output buffer as
   particles buffer; if the job owns the output buffer (names: particles 1, elements 2,
   output 3), reset deletes it before reading it. *)
Theorem C58_select_refuted : exists j c,
  j = mkJptr (Some 1) (Some 1) (Some 2) (Some 2) (Some 3) (Some 3) (Some 3) /\
  select_call j 4 true 3 = Some c /\ rc_particles c = 3 /\ deletes j c = Some 3.
Proof. do 2 eexists. split; [reflexivity|]. split; [reflexivity|]. split; reflexivity. Qed.
Print Assumptions C58_select_refuted.
