(* Preparing the output of tracking and assigning it to beam monitors and to the
   element-by-element configuration:
   sixtracklib/common/be_monitor/be_monitor.h, be_monitor/output_buffer.{h,c},
   output/elem_by_elem_output_buffer.{h,c}, output/elem_by_elem_config.c,
   output/output_buffer.{h,c}, track/track_job_base.cpp.

   Simplifications: the output buffer is the list of its particle sets
   (Elements.outsets), all of its objects being particle sets; an output address is the
   index of a set.  Turn and particle numbers are unbounded integers.  The beam elements
   buffer is the list of its elements.  Buffers are mapped and pointers not NULL. *)
From Coq Require Import ZArith List Bool.
From Verif Require Import Num Particle Elements EbeConfig ParticleSet ParticleIds.
Import ListNotations.
Local Open Scope Z_scope.
Set Implicit Arguments.

(* be_monitor.h: BeamMonitor_set_out_address *)
Definition mon_set_out (k : option nat) (m : monitor) : monitor :=
  mkMonitor (m_num_stores m) (m_start m) (m_skip m) k (m_max_id m) (m_min_id m)
            (m_rolling m) (m_turn_ordered m).

(* be_monitor.h: BeamMonitor_set_min_particle_id, BeamMonitor_set_max_particle_id *)
Definition mon_set_ids (min_id max_id : Z) (m : monitor) : monitor :=
  mkMonitor (m_num_stores m) (m_start m) (m_skip m) (m_out m) max_id min_id
            (m_rolling m) (m_turn_ordered m).

(* be_monitor.h 480-500: BeamMonitor_clear (BeamMonitor_preset 472-478 calls it) *)
Definition mon_clear : monitor := mkMonitor 0 0 1 None (-1) (-1) false true.

(* be_monitor.h 1088-1106: BeamMonitor_reset *)
Definition mon_reset (m : monitor) : monitor := mon_set_ids (-1) (-1) (mon_set_out None m).

(* be_monitor.h 602-622: BeamMonitor_stored_num_particles *)
Definition mon_stored_num (m : monitor) : Z :=
  if (0 <=? m_min_id m) && (m_min_id m <=? m_max_id m)
  then (m_max_id m - m_min_id m + 1) * m_num_stores m else 0.

(* be_monitor.h 624-673: BeamMonitor_has_turn_stored *)
Definition mon_has_turn_stored (m : monitor) (turn max_num_turns : Z) : bool :=
  if (0 <=? m_start m) && (m_start m <=? turn) && (0 <? m_num_stores m) &&
     (0 <? m_skip m) && ((turn <=? max_num_turns) || (max_num_turns <? 0)) then
    if m_start m <=? turn then
      let turns := turn - m_start m in
      if Z.rem turns (m_skip m) =? 0 then
        let store_idx := Z.quot turns (m_skip m) in
        if negb (m_rolling m) then store_idx <? m_num_stores m
        else if m_start m <? max_num_turns then
          let max_turn := max_num_turns - m_start m in
          let max_num_stores := Z.quot max_turn (m_skip m) in
          let max_num_stores := if negb (Z.rem max_turn (m_skip m) =? 0)
                                then max_num_stores + 1 else max_num_stores in
          max_num_stores <=? store_idx + m_num_stores m
        else false
      else false
    else false
  else false.

(* elem_by_elem_output_buffer.h 162-262: find_min_max_element_id_from_buffer.  [types]: for
   each object, whether it counts (type id not NONE, PARTICLE, INVALID, LINE or
   ELEM_BY_ELEM_CONF).  First loop (192-207): position and rest after the first object
   that counts, none if there is none. *)
Fixpoint find_first_element (types : list bool) (min_id : Z) : Z * option (list bool) :=
  match types with
  | [] => (min_id, None)
  | true :: rest => (min_id, Some rest)
  | false :: rest => find_first_element rest (min_id + 1)
  end.

(* 209-225: second loop, number of objects that count *)
Fixpoint count_elements (types : list bool) : Z :=
  match types with
  | [] => 0
  | b :: rest => (if b then 1 else 0) + count_elements rest
  end.

(* (min, max, number of elements) written through the pointers; None = failure.
   [min0], [max0]: values before the call *)
Definition find_element_range (types : list bool) (min0 max0 start : Z) : option (Z * Z * Z) :=
  if (0 <? Z.of_nat (length types)) && (0 <=? start) then
    let '(min_id, rest) := find_first_element types start in
    let n := match rest with Some r => 1 + count_elements r | None => 0 end in
    let max_id := min_id + match rest with Some r => count_elements r | None => 0 end in
    let '(min_id, max_id) := if n =? 0 then (start, start) else (min_id, max_id) in
    if (start <=? min_id) && (min_id <=? max_id) && (max_id <? min_id + n)
    then Some (keep_min min0 min_id, keep_max max0 max_id, n)
    else None
  else None.

Section Out.
Variable T : Type.
(* contents of a newly added particle: Particles_new presets the arrays *)
Variable blank : particle T.
(* does Particles_new (and the Buffer_reserve before it) find memory for a set of this
   size in this buffer? *)
Variable room : outsets T -> Z -> bool.

(* Particles_new( output_buffer, n ): None = NULL *)
Definition particles_new (outs : outsets T) (n : Z) : option (outsets T) :=
  if room outs n then Some (outs ++ [repeat blank (Z.to_nat n)]) else None.

(* beam_elements.h 134-195: BeamElements_is_beam_element_obj; BTriCubData is no beam
   element, BUnknown stands for objects of other types *)
Definition is_beam_element (be : element T) : bool :=
  match be with BTriCubData _ | BUnknown => false | _ => true end.

(* does the type of the object count for find_element_range?  For BUnknown the model
   takes the types that do not count. *)
Definition counts (be : element T) : bool :=
  match be with BUnknown => false | _ => true end.

(* ---------------- beam monitors ---------------- *)

(* be_monitor/output_buffer.c 281-321: loop of prepare_output_buffer_detailed *)
Fixpoint mon_prepare_loop (first_turn min_pid max_pid : Z) (line : list (element T))
    (outs : outsets T) : list (element T) * outsets T * Z :=
  match line with
  | [] => ([], outs, SUCCESS)
  | BMonitor m :: rest =>
    if (first_turn <=? m_start m) && (0 <? m_num_stores m) then
      match particles_new outs ((1 + max_pid - min_pid) * m_num_stores m) with
      | Some outs =>
        let '(rest, outs, st) := mon_prepare_loop first_turn min_pid max_pid rest outs in
        (BMonitor (mon_set_out None (mon_set_ids min_pid max_pid m)) :: rest, outs, st)
      | None => (line, outs, FAILURE)
      end
    else
      let '(rest, outs, st) := mon_prepare_loop first_turn min_pid max_pid rest outs in
      (BMonitor m :: rest, outs, st)
  | be :: rest =>
    let '(rest, outs, st) := mon_prepare_loop first_turn min_pid max_pid rest outs in
    (be :: rest, outs, st)
  end.

(* be_monitor/output_buffer.c 247-348: BeamMonitor_prepare_output_buffer_detailed; the
   index offset is the number of objects before the call *)
Definition mon_prepare (min_pid max_pid min_turn : Z) (line : list (element T))
    (outs : outsets T) : list (element T) * outsets T * Z :=
  if (min_turn <? 0) || (min_pid <? 0) || (max_pid <? min_pid) then (line, outs, FAILURE)
  else mon_prepare_loop min_turn min_pid max_pid line outs.

(* be_monitor/output_buffer.h 298-352: loop of assign_managed_output_buffer; [out]: the
   position of out_it.  BufferIndex_get_const_particles is NULL for a set without
   particles (particles.h 2652-2668), then num_stored_particles is 0. *)
Fixpoint mon_assign_loop (outs : outsets T) (first_turn : Z) (line : list (element T)) (out : nat)
  : list (element T) * Z :=
  match line with
  | [] => ([], SUCCESS)
  | BMonitor m :: rest =>
    let nn := m_num_stores m in
    match nth_error outs out with
    | Some l =>
      if (0 <? nn) && (first_turn <=? m_start m) then
        let num := Z.of_nat (length l) in
        let per_turn := if m_min_id m <=? m_max_id m then m_max_id m - m_min_id m + 1 else 0 in
        if (0 <? nn) && (0 <? per_turn) && (0 <? num) && (per_turn * nn <=? num) then
          let '(rest, st) := mon_assign_loop outs first_turn rest (S out) in
          (BMonitor (mon_set_out (Some out) m) :: rest, st)
        else if (0 <? nn) && (0 <? per_turn) then (line, FAILURE)
        else let '(rest, st) := mon_assign_loop outs first_turn rest out in (BMonitor m :: rest, st)
      else let '(rest, st) := mon_assign_loop outs first_turn rest out in (BMonitor m :: rest, st)
    | None => (line, FAILURE)                      (* out_it == out_end *)
    end
  | be :: rest =>
    let '(rest, st) := mon_assign_loop outs first_turn rest out in (be :: rest, st)
  end.

(* be_monitor/output_buffer.h 240-357: BeamMonitor_assign_managed_output_buffer; the
   debug version 360-410 assigns with this function and returns its status *)
Definition mon_assign (outs : outsets T) (first_turn : Z) (offset : nat) (line : list (element T))
  : list (element T) * Z :=
  if Z.of_nat offset <=? Z.of_nat (length outs) then mon_assign_loop outs first_turn line offset
  else (line, FAILURE).

(* ---------------- element by element ---------------- *)

(* elem_by_elem_output_buffer.c 247-349: prepare_output_buffer_detailed; None = failure *)
Definition ebe_prepare_detailed (min_pid max_pid min_eid max_eid min_turn max_turn : Z)
    (outs : outsets T) : option (outsets T * nat) :=
  if (0 <=? min_pid) && (min_pid <=? max_pid) && (0 <=? min_eid) && (min_eid <=? max_eid) &&
     (0 <=? min_turn) && (min_turn <=? max_turn) then
    match particles_new outs
            (ebe_stored_num_detailed min_pid max_pid min_eid max_eid min_turn max_turn) with
    | Some outs' => Some (outs', length outs)
    | None => None
    end
  else None.

(* elem_by_elem_output_buffer.c 353-376: prepare_output_buffer_from_conf *)
Definition ebe_prepare_from_conf (c : ebe_config) (outs : outsets T) : option (outsets T * nat) :=
  ebe_prepare_detailed (e_min_pid c) (e_max_pid c) (e_min_eid c) (e_max_eid c)
    (e_min_turn c) (e_max_turn c) outs.

(* output/output_buffer.h 314-362: ElemByElemConfig_assign_managed_output_buffer (and its
   debug version 363-423).  The size of the set is only checked by an assertion.
   Particles_managed_buffer_get_particles is NULL for an index >= number of objects (except
   for the index equal to it, which reads behind the object list: finding C08; callers
   check the index) and for a set without particles. *)
Definition ebe_assign (outs : outsets T) (offset : nat) (c : ebe_config) : ebe_config * Z :=
  match nth_error outs offset with
  | Some (_ :: _) => (ebe_set_out c (Some offset), SUCCESS)
  | _ => (c, FAILURE)
  end.

(* output/output_buffer.h 429-455, 457-486: OutputBuffer_get_min_max_attributes *)
Definition out_min_max (p : pset T) (line : list (element T)) (start : Z)
  : option (minmax * Z) :=
  match get_min_max p with
  | None => None
  | Some (m, st) =>
    if st =? 0 then
      match find_element_range (map counts line) (mm_min_elem m) (mm_max_elem m) start with
      | Some (mn, mx, _) =>
        Some (mkMinMax (mm_min_pid m) (mm_max_pid m) mn mx (mm_min_turn m) (mm_max_turn m), 0)
      | None => Some (m, -1)
      end
    else Some (m, st)
  end.

(* elem_by_elem_config.c 240-298: ElemByElemConfig_init.  It compares the number of turns
   with the smallest element id. *)
Definition ebe_init (p : pset T) (line : list (element T)) (start until : Z)
  : option (ebe_config * Z) :=
  if (until <? 0) || (start <? 0) then Some (ebe_preset, FAILURE)
  else
    match out_min_max p line start with
    | None => None
    | Some (m, st) =>
      if st =? 0 then
        if (mm_min_pid m <=? mm_max_pid m) && (0 <=? mm_min_pid m) &&
           (mm_min_elem m <=? mm_max_elem m) && (start <=? mm_min_elem m) &&
           (mm_min_turn m <=? mm_max_turn m) && (0 <=? mm_min_turn m) then
          let max_turn := if mm_min_elem m <? until then until - 1 else mm_max_turn m in
          match ebe_init_detailed ORDER_DEFAULT (mm_min_pid m) (mm_max_pid m)
                  (mm_min_elem m) (mm_max_elem m) (mm_min_turn m) max_turn true with
          | Some c => Some (c, SUCCESS)
          | None => Some (ebe_preset, FAILURE)
          end
        else Some (ebe_preset, st)
      else Some (ebe_preset, st)
    end.

(* ---------------- both ---------------- *)

(* output/output_buffer.c 288-361: OutputBuffer_prepare_detailed.  Result: beam elements,
   output buffer, and on success: offset of the element-by-element set, offset of the
   monitor sets, last element-by-element turn. *)
Definition out_prepare_detailed (m : minmax) (until : Z) (line : list (element T)) (outs : outsets T)
  : list (element T) * outsets T * option (nat * nat * Z) :=
  let do_ebe := (0 <=? mm_min_turn m) && (mm_min_turn m <? until) in
  let prep :=
    if do_ebe then
      match ebe_prepare_detailed (mm_min_pid m) (mm_max_pid m) (mm_min_elem m) (mm_max_elem m)
              (mm_min_turn m) (until - 1) outs with
      | Some (outs', k) => Some (outs', k, until - 1)
      | None => None
      end
    else Some (outs, 0%nat, 0) in
  match prep with
  | None => (line, outs, None)
  | Some (outs1, k, max_turn) =>
    let '(line, outs2, st) :=
      mon_prepare (mm_min_pid m) (mm_max_pid m) (mm_min_turn m) line outs1 in
    if st =? 0 then (line, outs2, Some (k, length outs1, max_turn)) else (line, outs2, None)
  end.

(* output/output_buffer.c 132-205: OutputBuffer_required_for_tracking_detailed, as two
   flags (element by element, beam monitors) *)
Definition has_storing_monitor (line : list (element T)) : bool :=
  existsb (fun be => match be with BMonitor m => 0 <? m_num_stores m | _ => false end) line.

Definition out_required (m : minmax) (until : Z) (line : list (element T)) : bool * bool :=
  if (0 <=? mm_min_pid m) && (mm_min_pid m <=? mm_max_pid m) &&
     (0 <=? mm_min_elem m) && (mm_min_elem m <=? mm_max_elem m) &&
     (0 <=? mm_min_turn m) && (mm_min_turn m <=? mm_max_turn m) then
    ((mm_min_turn m <? until) && (0 <? Z.of_nat (length line)), has_storing_monitor line)
  else (false, false).

(* ---------------- track job ---------------- *)

(* what a track job knows after being set up *)
Record job := mkJob {
  j_ranges : minmax;               (* min/max particle, element and initial turn ids *)
  j_line : list (element T);       (* beam elements buffer *)
  j_outs : outsets T;              (* output buffer *)
  j_ebe : option ebe_config;       (* element-by-element configuration *)
  j_until : Z;                     (* until_turn_elem_by_elem *)
  j_ebe_on : bool; j_mon_on : bool }.  (* output enabled flags *)

(* track_job_base.cpp 2194-2262: doPrepareParticlesStructures, the ranges (the particle
   addresses buffer is assumed to be set up successfully) *)
Definition job_particles (objs : list (pobj T)) (idx : list Z) : option (minmax * Z) :=
  if (Z.of_nat (length idx) <=? Z.of_nat (length objs)) then
    if (Z.of_nat (length idx) <=? 1) && (nth 0 idx 0 =? 0) then
      match get_const_particles objs 0 with
      | None => None
      | Some (Some p) => get_min_max p
      | Some None => Some (minmax_init, FAILURE)
      end
    else get_min_max_sets objs idx
  else Some (minmax_init, FAILURE).

(* track_job_base.cpp 2269-2361: doPrepareBeamElementsStructures.  The ids of the monitors
   are set if the job had a particles buffer before ([again]). *)
Definition set_all_ids (min_pid max_pid : Z) (line : list (element T)) : list (element T) :=
  map (fun be => match be with BMonitor m => BMonitor (mon_set_ids min_pid max_pid m) | _ => be end)
    line.

Definition job_elements (again : bool) (m : minmax) (line : list (element T))
  : option (minmax * list (element T)) :=
  if (0 <? Z.of_nat (length line)) && forallb is_beam_element line then
    match find_element_range (map counts line) (mm_min_elem m) (mm_max_elem m) 0 with
    | Some (mn, mx, _) =>
      let m := mkMinMax (mm_min_pid m) (mm_max_pid m) mn mx (mm_min_turn m) (mm_max_turn m) in
      Some (m, if again && (mm_min_pid m <=? mm_max_pid m)
               then set_all_ids (mm_min_pid m) (mm_max_pid m) line else line)
    | None => None
    end
  else None.

(* track_job_base.cpp 2453-2515: doPrepareOutputStructures, after the output buffer has been
   chosen *)
Definition job_output (order : Z) (rolling : bool) (m : minmax) (until : Z)
    (line : list (element T)) (outs : outsets T)
  : list (element T) * outsets T * option (option ebe_config * nat * nat * Z) :=
  match out_prepare_detailed m until line outs with
  | (line, outs, None) => (line, outs, None)
  | (line, outs, Some (k, off, max_turn)) =>
    if (0 <? until) && (0 <=? mm_min_turn m) && (mm_min_turn m <=? max_turn) &&
       (mm_min_turn m <? until) then
      match ebe_init_detailed order (mm_min_pid m) (mm_max_pid m) (mm_min_elem m) (mm_max_elem m)
              (mm_min_turn m) max_turn rolling with
      | Some c => (line, outs, Some (Some c, k, off, until))
      | None => (line, outs, None)
      end
    else (line, outs, Some (None, k, off, 0))
  end.

(* track_job_base.cpp 2532-2581: doAssignOutputBufferToBeamMonitors *)
Definition job_assign_monitors (outs : outsets T) (min_turn : Z) (off : nat) (line : list (element T))
  : list (element T) * Z :=
  if existsb (fun be => match be with BMonitor _ => true | _ => false end) line &&
     (0 <=? min_turn) && (Z.of_nat off <? Z.of_nat (length outs))
  then mon_assign outs min_turn off line else (line, FAILURE).

(* track_job_base.cpp 2583-2627: doAssignOutputBufferToElemByElemConfig *)
Definition job_assign_ebe (outs : outsets T) (k : nat) (c : option ebe_config)
  : option ebe_config * Z :=
  match c with
  | Some c =>
    if Z.of_nat k <? Z.of_nat (length outs) then
      let '(c, st) := ebe_assign outs k c in (Some c, st)
    else (Some c, FAILURE)
  | None => (None, FAILURE)
  end.

(* track_job_base.cpp 2679-2746: doReset, with the output buffer outs.  None: undefined
   behaviour; status in the result. *)
Definition job_reset (again : bool) (order : Z) (rolling : bool) (objs : list (pobj T))
    (idx : list Z) (until : Z) (line : list (element T)) (outs : outsets T)
  : option (job * Z) :=
  let fail m line outs := Some (mkJob m line outs None 0 false false, FAILURE) in
  match job_particles objs idx with
  | None => None
  | Some (m, st) =>
    if negb (st =? 0) then fail m line outs
    else match job_elements again m line with
    | None => fail m line outs
    | Some (m, line) =>
      match get_min_max_sets objs idx with
      | None => None
      | Some (m1, st1) =>
        (* out_required looks up the ranges again, for the sets of the job *)
        let rng :=
          if st1 =? 0 then
            match find_element_range (map counts line) (mm_min_elem m1) (mm_max_elem m1) 0 with
            | Some (mn, mx, _) =>
              Some (mkMinMax (mm_min_pid m1) (mm_max_pid m1) mn mx (mm_min_turn m1) (mm_max_turn m1))
            | None => None
            end
          else None in
        let '(need_ebe, need_mon) :=
          match rng with Some m1 => out_required m1 until line | None => (false, false) end in
        if need_ebe || need_mon then
          match job_output order rolling m until line outs with
          | (line, outs, None) => fail m line outs
          | (line, outs, Some (c, k, off, until)) =>
            let '(c, st) := if need_ebe then job_assign_ebe outs k c else (c, SUCCESS) in
            if st =? 0 then
              let '(line, st) := if need_mon then job_assign_monitors outs (mm_min_turn m) off line
                                 else (line, SUCCESS) in
              Some (mkJob m line outs c until need_ebe (need_mon && (st =? 0)), st)
            else Some (mkJob m line outs c until false false, st)
          end
        else Some (mkJob m line outs None 0 false false, SUCCESS)
      end
    end
  end.

End Out.
