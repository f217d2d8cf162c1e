(* Theorems for C62: the older track job (C interface, Python); another output buffer for a
   job. *)
From Coq Require Import ZArith List Bool Lia Sorted.
From Verif Require Import Num Particle Elements EbeConfig EbeSpec Track ParticleSet ParticleSetProofs ParticleIds
  ParticleSpec ParticleIdsProofs Output OutputSpec JobProofs Kernels ThreadsSpec Threads JobTrack JobTrackSpec
  JobTrackProofs PropertiesJobTrack PropertiesRecords OldJob OldJobProofs ExampleNum RecordCases.
Import ListNotations.
Local Open Scope Z_scope.

(* index i is asked for and names a particle set, empty or not *)
Definition named {T : Type} (idx : list Z) (objs : list (pobj T)) (i : Z) : Prop :=
  In i idx /\ exists ps, holds objs i ps.

(* Asking for sets by index is always defined.  The job has those which name a particle set,
   in ascending order and each once, and says for each how many particles it has. *)
Theorem C62_selected : forall T s idx (objs : list (pobj T)), proper objs ->
  exists s', oset_sets s idx (Some objs) = Some s' /\ StronglySorted Z.lt (o_idx s') /\
    (forall i, In i (o_idx s') <-> named idx objs i) /\
    (forall k i, oset_index s' k = Some i -> exists ps, holds objs i ps /\
       onum_in_set s' k = Some (Z.of_nat (length ps))) /\
    ((exists i, named idx objs i) -> o_total s' = fold_right Z.add 0 (o_nums s')).
Proof.
  intros T s idx objs Hp. destruct (oset_sets_spec s idx objs Hp) as (s' & E & A & B & C & D & _).
  exists s'. split; [exact E|]. split; [exact A|]. split; [exact B|]. split.
  - intros k i Hk. unfold oset_index, onum_in_set, aget in *. destruct (0 <=? k); [|discriminate Hk].
    revert Hk C. clear. generalize (o_idx s') (o_nums s') (Z.to_nat k). intros l0 ns0 n Hn C. revert n Hn. induction C as [|x n0 l ns H F IH]; intros [|n] Hn; try discriminate Hn.
    + cbn [nth_error] in *. destruct H as (ps & Hh & ->). assert (x = i) by congruence. subst x. eauto.
    + cbn [nth_error] in *. now apply IH.
  - intros (i & Hi). apply D. apply B in Hi. intros X. rewrite X in Hi. destruct Hi.
Qed.
Print Assumptions C62_selected.

(* Tracking with a job made for a list of sets, none of them empty, in any of the three ways
   and at any later time while they are still particle sets: every particle of a set asked
   for ends as tracking it alone gives, nothing else in the buffer changes, success if and
   only if all particles succeed. *)
Lemma orun_sets : forall T (N : NumOps T) c (s : osets) (jb : job T) r m objs o objs' o' st (P : Z -> Prop),
  o_idx s <> [] -> NoDup (o_idx s) -> (forall i, In i (o_idx s) <-> P i) ->
  (forall i, P i -> exists ps, ps <> [] /\ holds objs i ps) -> asks (as_tjob (s, jb)) r m ->
  orun N c (s, jb) r objs o = Ok (objs', o', st) ->
  tracks_exactly N c m o P objs objs' st.
Proof.
  intros T N c s jb r m objs o objs' o' st P Hne Hnd Hin Hall Ha E. unfold orun in E.
  rewrite (run_sets N c (as_tjob (s, jb)) r m objs o Ha Hne) in E. cbn [as_tjob fst q_idx] in E.
  destruct (cpu_track_result N c m (o_idx s) objs o objs' o' st Hne Hnd) with (2 := E) as (A & B & C & D).
  { intros i Hx. apply Hall. now apply Hin. }
  split; [exact A|]. split; [intros i Hx; apply B; now rewrite Hin|]. split.
  - intros i ps Hx. apply C. now apply Hin.
  - intros Hz. apply D. intros i ps p p' s1 Hx. apply Hz. now apply Hin.
Qed.

Theorem C62_run : forall T (N : NumOps T) c blank room idx objs0 until line outs (s : osets) (jb : job T) st0 r m objs o objs' o' st,
  proper objs0 -> (exists i, named idx objs0 i) ->
  ocreate blank room (MadeSets idx) objs0 until line outs = Some (s, jb, st0) ->
  (forall i, named idx objs0 i -> exists ps, ps <> [] /\ holds objs i ps) ->
  asks (as_tjob (s, jb)) r m -> orun N c (s, jb) r objs o = Ok (objs', o', st) ->
  tracks_exactly N c m o (named idx objs0) objs objs' st.
Proof.
  intros T N c blank room idx objs0 until line outs s jb st0 r m objs o objs' o' st Hp Hex Hc Hall Ha E.
  unfold ocreate in Hc. destruct idx as [|i0 r0]; [exfalso; destruct Hex as (i & X & _); destruct X|].
  set (idx := i0 :: r0) in *.
  destruct (oset_sets_spec onew idx objs0 Hp) as (s' & Es & A & B & _). rewrite Es in Hc.
  destruct (job_reset blank room false ORDER_DEFAULT true objs0 (o_idx s') until line outs) as [[jb' st1]|]; [|discriminate Hc].
  assert (s' = s) by congruence. subst s'. clear Hc.
  apply (orun_sets T N c s jb r m objs o objs' o' st); auto.
  - destruct Hex as (i & Hx). apply B in Hx. intros X. rewrite X in Hx. destruct Hx.
  - now apply ss_lt_nodup.
Qed.
Print Assumptions C62_run.

(* without indices, and with index 0 alone: set 0 *)
Theorem C62_run_default : forall T (N : NumOps T) c blank room how objs0 until line outs (s : osets) (jb : job T) st0 r m objs o objs' o' st,
  how = MadePlain \/ how = MadeOne 0 \/ how = MadeSets [] ->
  ocreate blank room how objs0 until line outs = Some (s, jb, st0) ->
  (exists ps, ps <> [] /\ holds objs 0 ps) -> asks (as_tjob (s, jb)) r m ->
  orun N c (s, jb) r objs o = Ok (objs', o', st) ->
  tracks_exactly N c m o (fun i => i = 0) objs objs' st.
Proof.
  intros T N c blank room how objs0 until line outs s jb st0 r m objs o objs' o' st Hh Hc Hex Ha E.
  assert (Hs : o_idx s = [0]).
  { unfold ocreate in Hc. destruct Hh as [-> | [-> | ->]]; cbn [oset_sets unique sort insert onums onum Z.eqb] in Hc.
    - destruct (job_reset _ _ _ _ _ _ _ _ _ _) as [[? ?]|] in Hc; [|discriminate Hc]. injection Hc as <- _ _. reflexivity.
    - destruct (job_reset _ _ _ _ _ _ _ _ _ _) as [[? ?]|] in Hc; [|discriminate Hc]. injection Hc as <- _ _. reflexivity.
    - destruct (job_reset _ _ _ _ _ _ _ _ _ _) as [[? ?]|] in Hc; [|discriminate Hc]. injection Hc as <- _ _. reflexivity. }
  apply (orun_sets T N c s jb r m objs o objs' o' st); auto; rewrite ?Hs.
  - discriminate.
  - repeat constructor. intros [].
  - intros i. split; [intros [<-|[]]; reflexivity|intros ->; now left].
  - intros i ->. exact Hex.
Qed.
Print Assumptions C62_run_default.

(* Making a job for a single set by its index is undefined for every index but 0. *)
Theorem C62_one_set_refuted : forall T (blank : particle T) room i objs until line outs, i <> 0 ->
  ocreate blank room (MadeOne i) objs until line outs = None.
Proof.
  intros T blank room i objs until line outs Hi. unfold ocreate, oset_sets.
  cbn [sort insert unique onums onum]. rewrite (proj2 (Z.eqb_neq i 0) Hi). reflexivity.
Qed.
Print Assumptions C62_one_set_refuted.

(* Resetting a job for sets of which some exist: it becomes what a new job for these sets is,
   whatever it was before. *)
Theorem C62_reset : forall T (blank : particle T) room s idx objs until line outs,
  proper objs -> (exists i, named idx objs i) ->
  oreset blank room s idx objs until line outs = ocreate blank room (MadeSets idx) objs until line outs.
Proof.
  intros T blank room s idx objs until line outs Hp Hex. unfold oreset, ocreate.
  destruct idx as [|i0 r0]; [exfalso; destruct Hex as (i & X & _); destruct X|]. set (idx := i0 :: r0) in *.
  assert (E : oset_sets (oclear s) idx (Some objs) = oset_sets onew idx (Some objs)).
  { destruct (oset_sets_spec onew idx objs Hp) as (s' & Es & _ & B & _). rewrite Es. revert Es. unfold oset_sets.
    destruct (unique (sort (filter (names_set objs) idx))) as [|x l] eqn:El; [|exact (fun H => H)].
    intros [= <-]. destruct Hex as (i & Hi). apply B in Hi. destruct Hi. }
  rewrite E. reflexivity.
Qed.
Print Assumptions C62_reset.

(* Giving a job whose particles start at turn 0 another output buffer: it becomes what a new
   job for this buffer would be. *)
Theorem C62_assign : forall T (blank : particle T) room order rolling objs idx until line outs outs1 (j j1 : job T),
  job_sets objs idx -> 0 <= until -> (exists q, member_sets objs idx q /\ p_at_turn q = 0) ->
  job_reset blank room false order rolling objs idx until line outs = Some (j, SUCCESS) ->
  job_reset blank room false order rolling objs idx until (j_line j) outs1 = Some (j1, SUCCESS) ->
  j_ebe_on j1 || j_mon_on j1 = true ->
  assign_output blank room order rolling objs idx j outs1 = Some (j1, SUCCESS).
Proof.
  intros T blank room order rolling objs idx until line outs outs1 j j1 Hs Hu Hat H1 H2 Hon.
  assert (Hlo : forall q, member_sets objs idx q -> 0 <= p_at_turn q).
  { destruct Hs as (_ & _ & _ & _ & X). intros q Hq. apply (X q Hq). }
  assert (Hl : late_until 0 until = until).
  { unfold late_until. destruct (Z.ltb_spec 0 until); lia. }
  destruct (assign_form blank room order rolling objs idx until line outs outs1 j j1 0 Hs Hu Hlo Hat H1) as (A & B & C); auto.
  - now rewrite Hl.
  - rewrite A. rewrite Hl in C. rewrite B, <- C. destruct j1; reflexivity.
Qed.
Print Assumptions C62_assign.

(* If the particles start at turn t0, it becomes what a new job for fewer turns would be (t0
   fewer, or none), but goes on claiming that it has element by element output. *)
Theorem C62_assign_late : forall T (blank : particle T) room order rolling objs idx until line outs outs1 (j j1 : job T) t0,
  job_sets objs idx -> 0 <= until ->
  (forall q, member_sets objs idx q -> t0 <= p_at_turn q) -> (exists q, member_sets objs idx q /\ p_at_turn q = t0) ->
  job_reset blank room false order rolling objs idx until line outs = Some (j, SUCCESS) ->
  job_reset blank room false order rolling objs idx (if t0 <? until then until - t0 else 0) (j_line j) outs1 = Some (j1, SUCCESS) ->
  j_ebe_on j1 || j_mon_on j1 = true ->
  exists j2, assign_output blank room order rolling objs idx j outs1 = Some (j2, SUCCESS) /\
    j_ranges j2 = j_ranges j1 /\ j_line j2 = j_line j1 /\ j_outs j2 = j_outs j1 /\ j_ebe j2 = j_ebe j1 /\
    j_until j2 = j_until j1 /\ j_mon_on j2 = j_mon_on j1 /\ j_ebe_on j2 = (t0 <? until).
Proof.
  intros T blank room order rolling objs idx until line outs outs1 j j1 t0 Hs Hu Hlo Hat H1 H2 Hon.
  destruct (assign_form blank room order rolling objs idx until line outs outs1 j j1 t0 Hs Hu Hlo Hat H1 H2 Hon) as (A & B & C).
  eexists. split; [exact A|]. cbn [j_ranges j_line j_outs j_ebe j_until j_ebe_on j_mon_on]. repeat (split; [reflexivity|]). exact B.
Qed.
Print Assumptions C62_assign_late.

(* A job without beam monitor output whose element by element output spans at most as many
   turns as its first turn: no output buffer can be assigned to it, it stays as it is. *)
Theorem C62_assign_none : forall T (blank : particle T) room order rolling objs idx until line outs outs1 (j : job T) t0,
  job_sets objs idx -> 0 <= until ->
  (forall q, member_sets objs idx q -> t0 <= p_at_turn q) -> (exists q, member_sets objs idx q /\ p_at_turn q = t0) ->
  job_reset blank room false order rolling objs idx until line outs = Some (j, SUCCESS) ->
  until - t0 <= t0 -> j_mon_on j = false ->
  assign_output blank room order rolling objs idx j outs1 = Some (j, FAILURE).
Proof. exact @assign_none. Qed.
Print Assumptions C62_assign_none.

(* ------------------------------------------------------------------ *)
(* the buffer of C58 (sets at 0, 2 (empty) and 3): a job for 3, 0, 0, 1 and 9 *)
Example C62_example : exists s jb objs' o' st,
  ocreate zblank always_room (MadeSets [3; 0; 0; 1; 9]) sets_case 0 line_case [] = Some (s, jb, SUCCESS) /\
  named [3; 0; 0; 1; 9] sets_case 3 /\ o_idx s = [0; 3] /\ o_nums s = [2; 1] /\ o_total s = 3 /\
  (forall i, named [3; 0; 0; 1; 9] sets_case i -> exists ps, ps <> [] /\ holds sets_case i ps) /\
  asks (as_tjob (s, jb)) (TrackUntil 2) (UntilTurn line_case 2) /\
  orun ZOps Zconf (s, jb) (TrackUntil 2) sets_case [] = Ok (objs', o', st) /\ st = SUCCESS /\
  aget objs' 3 <> aget sets_case 3.
Proof.
  do 5 eexists. split; [vm_compute; reflexivity|].
  split; [split; [now left|eexists; reflexivity]|]. repeat (split; [reflexivity|]).
  split.
  { intros i (Hi & ps & Hh). cbn [In] in Hi. destruct Hi as [<-|[<-|[<-|[<-|[<-|[]]]]]].
    - eexists. split; [|reflexivity]. discriminate.
    - eexists. split; [|reflexivity]. discriminate.
    - eexists. split; [|reflexivity]. discriminate.
    - discriminate Hh.
    - discriminate Hh. }
  split; [reflexivity|]. split; [vm_compute; reflexivity|]. split; [reflexivity|]. vm_compute. discriminate.
Qed.

(* An empty set among those asked for stays a set of the job, which then cannot be set up:
   the same sets without the empty one can. *)
Theorem C62_empty_set_refuted : exists (objs : list (pobj Z)) s jb s' jb' st,
  ocreate zblank always_room (MadeSets [0; 2; 3]) objs 0 line_case [] = Some (s, jb, st) /\ st <> SUCCESS /\
  holds objs 2 [] /\ o_idx s = [0; 2; 3] /\
  ocreate zblank always_room (MadeSets [0; 3]) objs 0 line_case [] = Some (s', jb', SUCCESS).
Proof.
  exists sets_case. do 5 eexists. split; [vm_compute; reflexivity|]. split; [discriminate|].
  split; [reflexivity|]. split; [reflexivity|]. vm_compute. reflexivity.
Qed.
Print Assumptions C62_empty_set_refuted.

(* Resetting a job for sets which do not exist leaves it without sets, but it goes on
   counting the particles of its former sets. *)
Theorem C62_reset_total_refuted : exists (objs : list (pobj Z)) s jb s' jb' st,
  ocreate zblank always_room (MadeSets [0; 3]) objs 0 line_case [] = Some (s, jb, SUCCESS) /\
  oreset zblank always_room s [7] objs 0 line_case [] = Some (s', jb', st) /\
  o_idx s' = [] /\ o_nums s' = [] /\ o_total s' = 3.
Proof.
  exists sets_case. do 5 eexists. split; [vm_compute; reflexivity|]. split; [vm_compute; reflexivity|].
  split; [reflexivity|]. split; reflexivity.
Qed.
Print Assumptions C62_reset_total_refuted.

(* a job with both kinds of output gets another buffer *)
Example C62_assign_example : exists j j1,
  job_sets zobjs [0] /\ (exists q, member_sets zobjs [0] q /\ p_at_turn q = 0) /\
  job_reset zblank always_room false ORDER_DEFAULT true zobjs [0] 4 (zline (mon 2 1 1 (-1) (-1) false true None)) [] = Some (j, SUCCESS) /\
  job_reset zblank always_room false ORDER_DEFAULT true zobjs [0] 4 (j_line j) [zset 1] = Some (j1, SUCCESS) /\
  j_ebe_on j1 && j_mon_on j1 = true /\ map (@length _) (j_outs j1) = [1; 24; 4]%nat /\ j_line j1 <> j_line j.
Proof.
  do 2 eexists. split; [exact zobjs_sets|]. split.
  { exists zpart. split; [|reflexivity]. exists 0, (pset_of [zpart; zpart8]). split; [left; auto|].
    split; [reflexivity|]. exists 0. reflexivity. }
  split; [vm_compute; reflexivity|]. split; [vm_compute; reflexivity|]. split; [reflexivity|]. split; [reflexivity|].
  discriminate.
Qed.

(* Particles at turn 5, element by element output until turn 8 and a monitor: with another
   output buffer the job still says it has element by element output, but its configuration
   is gone: tracking element by element, possible before, fails. *)
Theorem C62_assign_refuted : exists s j j2 objs' o',
  job_reset zblank always_room false ORDER_DEFAULT true zobjs5 [0] 8 (zline (mon 2 5 1 (-1) (-1) false true None)) [] = Some (j, SUCCESS) /\
  assign_output zblank always_room ORDER_DEFAULT true zobjs5 [0] j [] = Some (j2, SUCCESS) /\
  s = onew /\ orun ZOps Zconf (s, j) (TrackElemByElem 8) zobjs5 (j_outs j) = Ok (objs', o', SUCCESS) /\
  j_ebe_on j2 = true /\ j_ebe j2 = None /\
  orun ZOps Zconf (s, j2) (TrackElemByElem 8) zobjs5 (j_outs j2) = Ok (zobjs5, j_outs j2, FAILURE).
Proof.
  exists onew. do 4 eexists. split; [vm_compute; reflexivity|]. split; [vm_compute; reflexivity|].
  split; [reflexivity|]. split; [vm_compute; reflexivity|]. split; [reflexivity|]. split; reflexivity.
Qed.
Print Assumptions C62_assign_refuted.

(* Until turn 12: turns 5 to 11 are recorded with the first output buffer; with another one
   only turns 5 and 6 have places, and with a third one the assignment fails. *)
Theorem C62_assign_turns_refuted : exists (j j2 : job Z) c c2,
  job_reset zblank always_room false ORDER_DEFAULT true zobjs5 [0] 12 [BDrift 2; BXYShift 1 1] [] = Some (j, SUCCESS) /\
  assign_output zblank always_room ORDER_DEFAULT true zobjs5 [0] j [] = Some (j2, SUCCESS) /\
  j_ebe j = Some c /\ e_min_turn c = 5 /\ e_max_turn c = 11 /\
  j_ebe j2 = Some c2 /\ e_min_turn c2 = 5 /\ e_max_turn c2 = 6 /\
  assign_output zblank always_room ORDER_DEFAULT true zobjs5 [0] j2 [] = Some (j2, FAILURE).
Proof.
  do 4 eexists. split; [vm_compute; reflexivity|]. split; [vm_compute; reflexivity|].
  repeat (split; [reflexivity|]). vm_compute. reflexivity.
Qed.
Print Assumptions C62_assign_turns_refuted.

(* The newer job, with a C++ buffer, reports the opposite of what happened. *)
Theorem C62_newer_status_refuted : forall st, assign_newer_cxx st = SUCCESS <-> st <> SUCCESS.
Proof.
  intros st. unfold assign_newer_cxx. change SUCCESS with 0. destruct (Z.eqb_spec st 0) as [->|H].
  - split; [discriminate|intros H; now elim H].
  - split; [intros _; exact H|reflexivity].
Qed.
Print Assumptions C62_newer_status_refuted.
