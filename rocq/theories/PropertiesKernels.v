(* Theorems for C21, C22: schedules, work-items, optimised and debug kernels. *)
From Coq Require Import ZArith List Bool Lia.
From Verif Require Import Num Particle Elements EbeConfig EbeSpec Track TrackSpec DispatchProofs Threads ThreadsSpec
  ThreadsProofs ThreadsLaunch ParticleSet ParticleSetProofs ParticleIds DebugReg Kernels KernelsProofs ExampleNum.
Import ListNotations.
Local Open Scope Z_scope.

(* C21.  [thread N c m p]: the tracking of particle p in mode m (until a turn, element by
   element, or along a line), one atomic action per element; [alone N c m p o]: the same
   call run by itself on output memory o.  [exec sched pool o]: the threads of the pool
   interleaved as the schedule (a list of thread numbers) says.  *)
Theorem C21_particle : forall (T : Type) (N : NumOps T) (c : config T) m ps sched o pool' o',
  exec sched (map (thread N c m) ps) o = Ok (pool', o') -> finished pool' ->
  length pool' = length ps /\
  forall i p, nth_error ps i = Some p ->
    exists p' oi st, alone N c m p o = Ok (p', oi, st) /\ nth_error pool' i = Some (Ret (p', st)).
Proof. exact @schedule_result. Qed.
Print Assumptions C21_particle.

(* the output memory does not depend on the schedule *)
Theorem C21_output : forall (T : Type) (N : NumOps T) (c : config T) m ps s1 s2 o pool1 o1 pool2 o2,
  own_records m ps ->
  exec s1 (map (thread N c m) ps) o = Ok (pool1, o1) -> finished pool1 ->
  exec s2 (map (thread N c m) ps) o = Ok (pool2, o2) -> finished pool2 ->
  pool1 = pool2 /\ o1 = o2.
Proof. exact @schedule_memory. Qed.
Print Assumptions C21_output.

(* no schedule is undefined or stuck if the particles can be tracked alone *)
Theorem C21_defined : forall (T : Type) (N : NumOps T) (c : config T) m ps o,
  (forall p, In p ps -> exists r, alone N c m p o = Ok r) ->
  forall sched, exists pool' o', exec sched (map (thread N c m) ps) o = Ok (pool', o') /\
    exists more pool'' o'', exec (sched ++ more) (map (thread N c m) ps) o = Ok (pool'', o'') /\
      finished pool''.
Proof. exact @schedule_defined. Qed.
Print Assumptions C21_defined.

(* Work-items: item i starts at particle i and advances by the number of work-items
   ([stride]); they may run in any order, and there may be more of them than particles. *)
Theorem C21_launch : forall (T : Type) (N : NumOps T) (c : config T) m items stride ps o p' o' st,
  0 < stride -> NoDup items -> (forall i, In i items <-> 0 <= i < stride) ->
  launch (fun i => plain_kernel (alone N c m) i stride) items (pset_of ps) o 0 = Ok (p', o', st) ->
  exists ps', p' = pset_of ps' /\ length ps' = length ps /\
    (forall i p, nth_error ps i = Some p -> exists q oi s,
       alone N c m p o = Ok (q, oi, s) /\ nth_error ps' i = Some q /\ (st = 0 -> s = 0)) /\
    ((forall p q oi s, In p ps -> alone N c m p o = Ok (q, oi, s) -> s = 0) -> st = 0).
Proof. exact @launch_result. Qed.
Print Assumptions C21_launch.

Theorem C21_launch_output : forall (T : Type) (N : NumOps T) (c : config T)
  m items1 stride1 items2 stride2 ps o p1 o1 st1 p2 o2 st2,
  own_records m ps -> 0 < stride1 -> 0 < stride2 -> NoDup items1 -> NoDup items2 ->
  (forall i, In i items1 <-> 0 <= i < stride1) -> (forall i, In i items2 <-> 0 <= i < stride2) ->
  launch (fun i => plain_kernel (alone N c m) i stride1) items1 (pset_of ps) o 0 = Ok (p1, o1, st1) ->
  launch (fun i => plain_kernel (alone N c m) i stride2) items2 (pset_of ps) o 0 = Ok (p2, o2, st2) ->
  p1 = p2 /\ o1 = o2.
Proof. exact @launch_memory. Qed.
Print Assumptions C21_launch_output.

Theorem C21_launch_defined : forall (T : Type) (N : NumOps T) (c : config T) m items stride ps o,
  0 < stride -> NoDup items -> (forall i, In i items -> 0 <= i < stride) ->
  (forall p, In p ps -> exists r, alone N c m p o = Ok r) ->
  exists ps' o' st, launch (fun i => plain_kernel (alone N c m) i stride) items (pset_of ps) o 0
    = Ok (pset_of ps', o', st).
Proof. exact @launch_defined. Qed.
Print Assumptions C21_launch_defined.

(* three particles, a lattice with a monitor, tracked by two work-items in either order,
   element by element into an output of 2 turns x 5 elements x 3 particles *)
Definition case_mon : monitor :=
  {| m_num_stores := 2; m_start := 0; m_skip := 1; m_out := Some 1%nat;
     m_min_id := 0; m_max_id := 2; m_rolling := false; m_turn_ordered := true |}.
Definition case_mode : mode Z :=
  ElemByElem (mkEbe 0 3 5 2 0 2 0 4 0 1 false (Some 0%nat)) (BMonitor case_mon :: zlattice) 2.
Definition case_ps : list (particle Z) :=
  map (fun k => set_x (10 * k) (set_particle_id k zpart)) [0; 1; 2].
Definition case_out : outsets Z := [repeat zpart 30; repeat zpart 6].

Example C21_case_records : own_records case_mode case_ps.
Proof.
  split; [|split].
  - vm_compute. repeat constructor; cbn; intuition discriminate.
  - assert (forall mon, In (BMonitor mon) (elements case_mode) -> mon = case_mon) as H.
    { intros mon Hin. cbn in Hin. destruct Hin as [E|Hin]; [congruence|].
      destruct Hin as [E|[E|[E|[E|[]]]]]; discriminate. }
    intros mon k Hin Hk. rewrite (H mon Hin) in *. cbn in Hk. injection Hk as <-.
    split; [reflexivity|]. split; [discriminate|]. split.
    + intros p Hp. cbn in Hp. destruct Hp as [<-|[<-|[<-|[]]]]; cbn; lia.
    + intros mon' Hin' _. rewrite (H mon' Hin'). auto.
  - exists 0, 2, 0, 4, 0, 1, false, (Some 0%nat). eexists. split; vm_compute; reflexivity.
Qed.

Example C21_case : exists p' o', 
  launch (fun i => plain_kernel (alone ZOps Zconf case_mode) i 2) [1; 0] (pset_of case_ps) case_out 0
    = Ok (p', o', 0) /\
  launch (fun i => plain_kernel (alone ZOps Zconf case_mode) i 4) [2; 0; 3; 1] (pset_of case_ps) case_out 0
    = Ok (p', o', 0) /\ p' <> pset_of case_ps /\ o' <> case_out.
Proof.
  eexists _, _. split; [vm_compute; reflexivity|]. split; [vm_compute; reflexivity|].
  split; vm_compute; discriminate.
Qed.

Example C21_case_schedule : exists pool' o',
  exec (concat (repeat [0; 2; 1; 1]%nat 40)) (map (thread ZOps Zconf case_mode) case_ps) case_out
    = Ok (pool', o') /\ finished pool' /\ o' <> case_out.
Proof.
  eexists _, _. split; [vm_compute; reflexivity|]. split; [|vm_compute; discriminate].
  intros t Ht. cbn in Ht. destruct Ht as [<-|[<-|[<-|[]]]]; eauto.
Qed.

(* C22.  For every per-particle function [track]. *)
Theorem C22_kernel : forall (T M : Type) (zero : T) (track : particle T -> M -> res (particle T * M * Z))
  pidx stride p o, pset_wf p -> 0 <= pidx -> 0 < stride ->
  opt_kernel zero track pidx stride p o = plain_kernel track pidx stride p o.
Proof. exact @opt_kernel_eq. Qed.
Print Assumptions C22_kernel.

Theorem C22_launch : forall (T M : Type) (zero : T) (track : particle T -> M -> res (particle T * M * Z))
  stride items p o s, pset_wf p -> 0 < stride -> (forall i, In i items -> 0 <= i) ->
  launch (fun i => opt_kernel zero track i stride) items p o s =
  launch (fun i => plain_kernel track i stride) items p o s.
Proof. exact @launch_eq. Qed.
Print Assumptions C22_launch.

(* on a particles buffer, for every existing set index (also of a non-particle object) *)
Theorem C22_buffer : forall (T M : Type) (zero : T) (track : particle T -> M -> res (particle T * M * Z))
  objs set pidx stride o,
  (forall i p, aget objs i = Some (Part p) -> pset_wf p) ->
  0 <= set < Z.of_nat (length objs) -> 0 <= pidx -> 0 < stride ->
  opt_buffer_kernel zero track objs set pidx stride o = plain_buffer_kernel track objs set pidx stride o.
Proof. exact @buffer_kernel_eq. Qed.
Print Assumptions C22_buffer.

(* the debug kernels, both variants, when the arguments are valid: same tracking, and the
   status is stored in the debug register if it is a failure *)
Theorem C22_debug_runs : forall (T M : Type) (zero : T) (track : particle T -> M -> res (particle T * M * Z))
  (opt : bool) objs set pidx stride slot o mf,
  (forall i p, aget objs i = Some (Part p) -> pset_wf p) ->
  0 <= set < Z.of_nat (length objs) -> 0 <= pidx -> 0 < stride -> 0 < slot ->
  (exists p, aget objs set = Some (Part p) /\ 0 < ps_num p) ->
  debug_kernel zero track opt (Some (false, objs)) (Some false) true true mf set pidx stride slot o =
  bind (plain_buffer_kernel track objs set pidx stride o) (fun r => let '(objs', o', st) := r in
    debug_result (Some objs', o') st 0).
Proof. exact @debug_runs. Qed.
Print Assumptions C22_debug_runs.

(* ... and with an invalid argument nothing is tracked and the status is failure *)
Theorem C22_debug_rejects : forall (T M : Type) (zero : T) (track : particle T -> M -> res (particle T * M * Z))
  (opt : bool) pb be cfg_ok args_ok mf set pidx stride slot o r,
  debug_kernel zero track opt pb be cfg_ok args_ok mf set pidx stride slot o = Ok r ->
  (pb = None \/ be = None \/ slot <= 0 \/ cfg_ok = false \/ pidx < 0 \/ stride <= 0 \/
   (exists objs, pb = Some (true, objs)) \/ be = Some true \/ args_ok = false) ->
  exists flags, r = (match pb with Some (_, objs) => Some objs | None => None end, o, -1, flags).
Proof. exact @debug_rejects. Qed.
Print Assumptions C22_debug_rejects.

(* the two debug kernels do not agree on every call: for an object which is not a particle
   set the plain one reports a failure, the optimised one reports success *)
Theorem C22_debug_refuted : exists (objs : list (pobj Z)) fl,
  let track (p : particle Z) (o : unit) := Ok (p, o, 0) in
  debug_kernel 0 track false (Some (false, objs)) (Some false) true true 0 0 0 1 8 tt
    = Ok (Some objs, tt, -1, fl) /\
  debug_kernel 0 track true (Some (false, objs)) (Some false) true true 0 0 0 1 8 tt
    = Ok (Some objs, tt, 0, 0).
Proof.
  exists [Other]. eexists. split; vm_compute; reflexivity.
Qed.
Print Assumptions C22_debug_refuted.

(* the debug kernel for a line accepts an end index behind the last element, although its
   own error flag for line boundaries would be raised for it *)
Theorem C22_line_check_refuted : exists (elems : list (element Z)) b e,
  line_debug_ok elems b e = true /\ line_debug_flags elems b e <> 0 /\ line_range elems b e = None.
Proof. exists zlattice, 1, 9. split; [reflexivity|]. split; [vm_compute; discriminate|reflexivity]. Qed.
Print Assumptions C22_line_check_refuted.

Example C22_case : pset_wf (pset_of case_ps) /\ exists r,
  opt_kernel 0 (alone ZOps Zconf case_mode) 1 1 (pset_of case_ps) case_out = Ok r /\
  fst (fst r) <> pset_of case_ps.
Proof.
  split; [apply pset_of_wf|]. eexists. split; [vm_compute; reflexivity|]. vm_compute. discriminate.
Qed.
Example C22_debug_case : exists o' st fl objs', 
  debug_kernel 0 (alone ZOps Zconf case_mode) true (Some (false, [Other; Part (pset_of case_ps)]))
    (Some false) true true 0 1 0 1 8 case_out = Ok (Some objs', o', st, fl) /\
  objs' <> [Other; Part (pset_of case_ps)].
Proof. eexists _, _, _, _. split; [vm_compute; reflexivity|]. vm_compute. discriminate. Qed.
