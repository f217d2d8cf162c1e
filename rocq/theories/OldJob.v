(* The older track job (the one behind the C interface and the Python wrapper):
   sixtracklib/common/internal/track_job_base.{h,cpp}, internal/track_job_cpu.cpp; and
   the assignment of another output buffer, which it has in common with the newer job
   (track/track_job_base.cpp). *)
From Coq Require Import ZArith List Bool.
From Verif Require Import Num Particle Elements EbeConfig Track ParticleSet ParticleIds Output Kernels ThreadsSpec JobTrack.
Import ListNotations.
Local Open Scope Z_scope.

Set Implicit Arguments.

(* m_particle_set_indices, m_num_particles_in_sets, m_total_num_particles_in_sets *)
Record osets := mkOsets { o_idx : list Z; o_nums : list Z; o_total : Z }.

(* internal/track_job_base.cpp 545-608: numParticleSets, particleSetIndex, numParticlesInSet,
   totalNumParticlesInSets (None: out_of_range) *)
Definition onum_sets (s : osets) : Z := Z.of_nat (length (o_idx s)).
Definition oset_index (s : osets) (k : Z) : option Z := aget (o_idx s) k.
Definition onum_in_set (s : osets) (k : Z) : option Z := aget (o_nums s) k.

(* internal/track_job_base.cpp 1501-1546 and 2966-2978: a new job has set 0, with no
   particles *)
Definition onew : osets := mkOsets [0] [0] 0.

Section Sets.
Variable T : Type.

(* internal/track_job_base.h 1067-1080: the index names a particle set of the buffer (there
   is no negative index) *)
Definition names_set (objs : list (pobj T)) (i : Z) : bool :=
  match aget objs i with Some (Part _) => true | _ => false end.

(* internal/track_job_base.h 1090-1098: number of particles of object i of the buffer.
   Without a buffer (null pointer) the object index starts at address 0 (buffer.h
   Buffer_get_objects_begin_addr): object 0 is the null pointer, which has no particles,
   any other is read from an address which holds no object: undefined. *)
Definition onum (pb : option (list (pobj T))) (i : Z) : option Z :=
  match pb with
  | Some objs => match aget objs i with Some ob => Some (seen_num ob) | None => None end
  | None => if i =? 0 then Some 0 else None
  end.

Fixpoint onums (pb : option (list (pobj T))) (l : list Z) : option (list Z) :=
  match l with
  | [] => Some []
  | i :: r =>
    match onum pb i, onums pb r with
    | Some n, Some ns => Some (n :: ns)
    | _, _ => None
    end
  end.

(* internal/track_job_base.h 1030-1114: doSetParticleSetIndices, with or without the
   particles buffer.  int64 and size_t sums do not overflow. *)
Definition oset_sets (s : osets) (idx : list Z) (pb : option (list (pobj T))) : option osets :=
  let kept := match pb with Some objs => filter (names_set objs) idx | None => idx end in
  match unique (sort kept) with
  | [] => Some (mkOsets [] [] (o_total s))
  | l =>
    match onums pb l with
    | Some ns => Some (mkOsets l ns (fold_right Z.add 0 ns))
    | None => None
    end
  end.

Variables (blank : particle T) (room : outsets T -> Z -> bool).

(* the constructors: without sets, with one set index, with a list of set indices *)
Inductive omade := MadePlain | MadeOne (i : Z) | MadeSets (idx : list Z).

(* internal/track_job_cpu.cpp 56-158 (C buffers) and 160-290 (C++ buffers).  The one with a
   single index passes no buffer to doSetParticleSetIndices; the status of doReset is
   dropped, it is part of the result here.  doReset (internal/track_job_base.cpp 2373-2437)
   and what it calls (1917-2372) do the same steps as that of the newer job (Output.v). *)
Definition ocreate (how : omade) (objs : list (pobj T)) (until : Z)
    (line : list (element T)) (outs : outsets T) : option (osets * job T * Z) :=
  let s := match how with
           | MadePlain => Some onew
           | MadeOne i => oset_sets onew [i] None
           | MadeSets [] => Some onew
           | MadeSets idx => oset_sets onew idx (Some objs)
           end in
  match s with
  | None => None
  | Some s =>
    match job_reset blank room false ORDER_DEFAULT true objs (o_idx s) until line outs with
    | Some (j, st) => Some (s, j, st)
    | None => None
    end
  end.

(* internal/track_job_base.cpp 3198-3243: doClear, the sets *)
Definition oclear (s : osets) : osets := mkOsets [0] [0] (o_total s).

(* internal/track_job_base.h 893-980 with internal/track_job_base.cpp 320-391: reset; the
   variants without indices and with one index call it with the lists [0] and [i] *)
Definition oreset (s : osets) (idx : list Z) (objs : list (pobj T)) (until : Z)
    (line : list (element T)) (outs : outsets T) : option (osets * job T * Z) :=
  let s := match idx with
           | [] => Some (oclear s)
           | _ => oset_sets (oclear s) idx (Some objs)
           end in
  match s with
  | None => None
  | Some s =>
    match job_reset blank room false ORDER_DEFAULT true objs (o_idx s) until line outs with
    | Some (j, st) => Some (s, j, st)
    | None => None
    end
  end.

(* numElemByElemTurns: internal/track_job_base.cpp 1330-1342, track/track_job_base.cpp
   1392-1403 *)
Definition ebe_turns (j : job T) : Z :=
  let m := j_ranges j in
  if (mm_min_turn m <? j_until j) && (0 <=? mm_min_turn m) then j_until j - mm_min_turn m else 0.

(* doAssignNewOutputBuffer with a buffer the job does not have yet:
   internal/track_job_base.cpp 2439-2482, track/track_job_base.cpp 2748-2795.  [objs], [idx]:
   the particles buffer and the sets of the job.  It passes the number of turns where the
   last turn is expected. *)
Definition assign_output (order : Z) (rolling : bool) (objs : list (pobj T)) (idx : list Z)
    (j : job T) (outs : outsets T) : option (job T * Z) :=
  let m := j_ranges j in
  let line := j_line j in
  match get_min_max_sets objs idx with
  | None => None
  | Some (m1, st1) =>
    let rng :=
      if st1 =? 0 then
        match find_element_range (map (@counts T) line) (mm_min_elem m1) (mm_max_elem m1) 0 with
        | Some (mn, mx, _) =>
          Some (mkMinMax (mm_min_pid m1) (mm_max_pid m1) mn mx (mm_min_turn m1) (mm_max_turn m1))
        | None => None
        end
      else None in
    let '(need_ebe, need_mon) :=
      match rng with Some m1 => out_required m1 (ebe_turns j) line | None => (false, false) end in
    if need_ebe || need_mon then
      match job_output blank room order rolling m (ebe_turns j) line outs with
      | (line, outs, None) =>
        Some (mkJob m line outs None (j_until j) (j_ebe_on j) (j_mon_on j), FAILURE)
      | (line, outs, Some (c, k, off, until)) =>
        let '(line, mon_on, st) :=
          if need_mon && j_mon_on j then
            let '(line, st) := job_assign_monitors outs (mm_min_turn m) off line in (line, st =? 0, st)
          else (line, j_mon_on j, SUCCESS) in
        let '(c, ebe_on, st) :=
          if (st =? 0) && need_ebe && j_ebe_on j then
            let '(c', st) := job_assign_ebe outs k c in
            (c', match c with
                 | Some _ => if Z.of_nat k <? Z.of_nat (length outs) then st =? 0 else true
                 | None => true
                 end, st)
          else (c, j_ebe_on j, st) in
        Some (mkJob m line outs c until ebe_on mon_on, st)
      end
    else Some (j, FAILURE)
  end.

(* assignOutputBuffer, C++ buffers: internal/track_job_base.cpp 469-487 (the test there is
   for true) and track/track_job_base.cpp 547-566, which tests the status of the newer job
   for true: success (0) becomes failure and failure becomes success *)
Definition assign_newer_cxx (st : Z) : Z := if st =? 0 then FAILURE else SUCCESS.

(* internal/track_job_cpu.cpp 339-505: trackUntil, trackElemByElem, trackLine do what those
   of the newer job do (JobTrack.cpu_run) with the sets of the job *)
Definition as_tjob (j : osets * job T) : tjob T :=
  (mkPsets (o_idx (fst j)) [] [] 0 0 (o_total (fst j)), snd j).
End Sets.

Definition orun (T : Type) (N : NumOps T) (c : config T) (j : osets * job T) (r : request)
    (objs : list (pobj T)) (o : outsets T) : res (list (pobj T) * outsets T * Z) :=
  cpu_run N c (as_tjob j) r objs o.
