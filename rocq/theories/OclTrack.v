(* Model of tracking on OpenCL devices: the kernels a ClContext keeps for tracking, the arguments it binds
   to them, and the launches made by the context and by TrackJobCl
   (/repo/sixtracklib/opencl/internal/context.cpp, opencl/context.h, opencl/internal/track_job_cl.cpp).
   Simplifications: the context itself is the one of OclContext.v; a launch whose enqueueing or flushing fails
   does not execute; in debug mode the outcome of preparing and of evaluating the status flags is an argument;
   numbers of kernels stay below 2^32; assertions are left out (release build). *)
From Coq Require Import Ascii String ZArith Bool List.
From Verif Require Import Num NodeId OclContext.
Import ListNotations.
Local Open Scope Z_scope.

(* context.h 63-70: the kernels with a fixed role, and the number of parameters they need *)
Inductive role : Set := KUntil | KLine | KElem | KAsgMon | KClrMon | KAsgElem | KFetch.
Definition role_eqb (a b : role) : bool :=
  match a, b with
  | KUntil, KUntil | KLine, KLine | KElem, KElem | KAsgMon, KAsgMon | KClrMon, KClrMon
  | KAsgElem, KAsgElem | KFetch, KFetch => true
  | _, _ => false
  end.
Definition min_args (k : role) : Z :=
  match k with KUntil => 5 | KLine => 7 | KElem => 7 | KAsgMon => 5 | KClrMon => 2 | KAsgElem => 4 | KFetch => 3 end.

(* one run of a kernel: its outcome, whether the status flags could be cleared before it, and the status
   they give after it (both used in debug mode only; base_context.cpp 2123-2157) *)
Record tenv : Set := mkX { x_out : outcome; x_prep : bool; x_eval : Z }.

(* a kernel executed by the device: its role, the arguments bound to it, the number of work items *)
Record launch : Set := mkLaunch { l_role : role; l_args : list bound; l_items : Z }.

Section Track.
Variable T : Type.
Variable N : NumOps T.
Local Notation ctx := (ctx T).

(* context.h 261-283: members of ClContext; program ids are left out, they are only stored *)
Record tctx := mkT { t_ctx : ctx; t_pset : Z; t_num : Z; t_cfg : Z; t_id : role -> Z }.
Definition t_with (c : ctx) (t : tctx) : tctx := mkT c (t_pset t) (t_num t) (t_cfg t) (t_id t).

(* context.cpp 670-676, 819-825, 997-1003, 1153-1161, 1251-1259, 1347-1353, 1427-1433: has_..._kernel *)
Definition has_kernel (k : role) (t : tctx) : bool :=
  has_node T (t_ctx t) && (t_id t k <? num_kers T (t_ctx t)).
(* context.cpp 678-682, 827-831, 1005-1009, 1163-1169, 1261-1266, 1355-1359, 1435-1441: ..._kernel_id; the
   one of track_line asks for the track_until kernel *)
Definition kid (k : role) (t : tctx) : Z :=
  if has_kernel (match k with KLine => KUntil | k => k end) t then t_id t k else ILLEGAL.

(* context.cpp 684-707, 833-855, 1011-1035, 1171-1194, 1268-1291, 1361-1384, 1443-1466: set_..._kernel_id *)
Definition set_kid (k : role) (id : Z) (t : tctx) : tctx * Z :=
  let c := t_ctx t in
  if has_node T c && (id <? num_kers T c) && (ker_prog T id c <? num_progs T c)
  then (mkT c (t_pset t) (t_num t) (t_cfg t) (fun k' => if role_eqb k' k then id else t_id t k'), 0)
  else (t, -1).

Definition set_arg (id i : Z) (a : karg) (t : tctx) : tctx :=
  match assign_arg T id i a (t_ctx t) with Some c => t_with c t | None => t end.

(* context.cpp 363-381: the loop used by all assign_... functions; positions of the argument by role *)
Fixpoint assign_each (l : list (role * Z)) (a : karg) (t : tctx) : tctx * Z :=
  match l with
  | [] => (t, 0)
  | (k, i) :: l =>
      let id := kid k t in
      if id =? ILLEGAL then assign_each l a t
      else
        let n := ker_nargs T id (t_ctx t) in
        if (n <=? i) || (n <? min_args k)
        then let '(t, s) := assign_each l a t in (t, Z.lor (-1) s)
        else assign_each l a (set_arg id i a t)
  end.

(* context.cpp 323-384: assign_particles_arg; [ok]: the argument holds a C-object buffer *)
Definition assign_particles (ok : bool) (a : Z) (t : tctx) : tctx * Z :=
  if ok then assign_each [(KUntil, 0); (KLine, 0); (KElem, 0); (KFetch, 0)] (AArgument a) t else (t, -1).
(* context.cpp 446-514: assign_beam_elements_arg; [ok]: a C-object buffer with at least one object *)
Definition assign_elements (ok : bool) (a : Z) (t : tctx) : tctx * Z :=
  if ok then assign_each [(KUntil, 2); (KLine, 2); (KElem, 2); (KAsgMon, 0); (KClrMon, 0)] (AArgument a) t
  else (t, -1).
(* context.cpp 516-574: assign_output_buffer_arg *)
Definition assign_output (ok : bool) (a : Z) (t : tctx) : tctx * Z :=
  if ok then assign_each [(KAsgMon, 1); (KAsgElem, 2)] (AArgument a) t else (t, -1).
(* context.cpp 576-631: assign_elem_by_elem_config_buffer_arg *)
Definition assign_config (ok : bool) (a : Z) (t : tctx) : tctx * Z :=
  if ok then assign_each [(KElem, 3); (KAsgElem, 0)] (AArgument a) t else (t, -1).
(* context.cpp 661-666, 1950-2006, 2020-2025: assign_elem_by_elem_config_index_arg *)
Definition assign_config_index (i : Z) (t : tctx) : tctx * Z :=
  let '(t, s) := assign_each [(KElem, 4); (KAsgElem, 1)] (AValue i) t in
  if s =? 0 then (mkT (t_ctx t) (t_pset t) (t_num t) i (t_id t), s) else (t, s).
(* context.cpp 633-659: assign_particles_addr_buffer_arg *)
Definition assign_addr (ok : bool) (a : Z) (t : tctx) : tctx * Z :=
  if ok then
    let id := kid KFetch t in
    (if negb (id =? ILLEGAL) && (min_args KFetch <=? ker_nargs T id (t_ctx t)) then set_arg id 1 (AArgument a) t else t, 0)
  else (t, -1).
(* context.cpp 386-444: assign_particle_set_arg *)
Definition assign_set (p n : Z) (t : tctx) : tctx * Z :=
  let '(t, s) := assign_each [(KUntil, 1); (KLine, 1); (KElem, 1)] (AValue p) t in
  if s =? 0 then (mkT (t_ctx t) p n (t_cfg t) (t_id t), s) else (t, s).
(* context.cpp 1883-1948: doAssignSlotSizeArgPrivImpl with BUFFER_DEFAULT_SLOT_SIZE = 8 *)
Definition assign_slots (t : tctx) : tctx * Z :=
  assign_each [(KUntil, 4); (KLine, 6); (KElem, 6); (KAsgMon, 4); (KClrMon, 1); (KAsgElem, 4); (KFetch, 2)] (AValue 8) t.
(* context.cpp 1803-1867: doAssignStatusFlagsArgPrivImpl *)
Definition assign_status (flags : Z) (t : tctx) : tctx * Z :=
  if c_debug T (t_ctx t)
  then assign_each [(KUntil, 5); (KLine, 7); (KElem, 7); (KAsgMon, 5); (KClrMon, 2); (KAsgElem, 5)] (ABuffer flags) t
  else (t, 0).

(* context.cpp 730-747 and likewise in the other functions: run with the last work group size; [dbg]: the
   status flags are used *)
Definition trun (dbg : bool) (x : tenv) (k : role) (n : Z) (t : tctx) : tctx * list launch * Z :=
  let id := kid k t in
  if dbg && negb (x_prep x) then (t, [], -1)
  else
    let w := last_wgs T id (t_ctx t) in
    let args := match nthz (c_kers T (t_ctx t)) id with Some r => k_bound T r | None => [] end in
    let '(c, ok) := run T N (x_out x) id n w (t_ctx t) in
    (t_with c t, if ok then [mkLaunch k args (run_items n w)] else [],
     if ok then (if dbg then x_eval x else 0) else -1).

Fixpoint set_args (id : Z) (l : list (Z * Z)) (t : tctx) : tctx :=
  match l with [] => t | (i, v) :: l => set_args id l (set_arg id i (AValue v) t) end.

(* what is run: tracking up to a turn, over a part of the line, up to a turn with output at every element;
   handing the output buffer to the beam monitors, taking it away from them, and handing it to the
   element-by-element output *)
Inductive cmd : Set :=
| Until (turn : Z) | Line (b e : Z) (finish : bool) | Elem (turn : Z)
| AsgMon (turn off : Z) | ClrMon | AsgElem (off : Z).
Definition role_of (m : cmd) : role :=
  match m with
  | Until _ => KUntil | Line _ _ _ => KLine | Elem _ => KElem
  | AsgMon _ _ => KAsgMon | ClrMon => KClrMon | AsgElem _ => KAsgElem
  end.
Definition tracks (m : cmd) : bool := match m with Until _ | Line _ _ _ | Elem _ => true | _ => false end.
(* context.cpp 725-728, 878-889, 1056-1059, 1215-1225, 1312-1322: positions and values of the arguments *)
Definition values (m : cmd) (t : tctx) : list (Z * Z) :=
  match m with
  | Until u => [(3, u)]
  | Line b e f => [(3, b); (4, e); (5, if f then 1 else 0)]
  | Elem u => [(5, u)]
  | AsgMon u o => [(2, u); (3, o)]
  | ClrMon => []
  | AsgElem o => [(1, t_cfg t); (3, o)]
  end.

(* context.cpp 709-751, 857-912, 1037-1082: track_until, track_line, track_elem_by_elem of the selected set;
   1196-1247, 1386-1423, 1293-1343: assign_beam_monitor_output, clear_beam_monitor_output,
   assign_elem_by_elem_output *)
Definition track_sel (x : tenv) (m : cmd) (t : tctx) : tctx * list launch * Z :=
  let k := role_of m in let id := kid k t in
  if has_node T (t_ctx t) && (min_args k <=? ker_nargs T id (t_ctx t))
  then trun (c_debug T (t_ctx t)) x k (if tracks m then t_num t else 1) (set_args id (values m t) t)
  else (t, [], -1).
(* context.cpp 1508-1531: fetch_particles_addr *)
Definition fetch (x : tenv) (t : tctx) : tctx * list launch * Z :=
  if has_node T (t_ctx t) then trun false x KFetch 1 t else (t, [], -1).

(* context.cpp 753-815, 914-993, 1084-1149: track_until, track_line, track_elem_by_elem of a given set;
   track_elem_by_elem runs with the number of particles of the selected set *)
Definition track_set (x : tenv) (m : cmd) (p n : Z) (restore : bool) (t : tctx) : tctx * list launch * Z :=
  let k := role_of m in let id := kid k t in
  if has_node T (t_ctx t) && (min_args k <=? ker_nargs T id (t_ctx t)) then
    let t := if t_pset t =? p then t else set_arg id 1 (AValue p) t in
    let t := set_args id (values m t) t in
    let '(t, l, s) := trun (c_debug T (t_ctx t)) x k (match m with Elem _ => t_num t | _ => n end) t in
    (if negb (t_pset t =? p) && restore then set_arg id 1 (AValue (t_pset t)) t else t, l, s)
  else (t, [], -1).

(* track_job_cl.cpp 1485-1493, 1551-1559, 1615-1623: the loop over the particle sets of the job *)
Fixpoint track_sets (m : cmd) (sets : list (Z * Z * tenv)) (t : tctx) : tctx * list launch * Z :=
  match sets with
  | [] => (t, [], 0)
  | (p, n, x) :: sets =>
      let '(t, l, s) := track_set x m p n false t in
      let '(t, l', s') := track_sets m sets t in (t, l ++ l', Z.lor s s')
  end.
(* track_job_cl.cpp 1445-1504, 1506-1570, 1572-1634: track, trackElemByElem, trackLine; a set is given with its
   number of particles and the outcome of its run; None: an exception in a function that must not throw *)
Definition track_job (m : cmd) (sets : list (Z * Z * tenv)) (t : tctx) : option (tctx * list launch * Z) :=
  match sets with
  | [] => Some (t, [], -1)
  | [(_, _, x)] => Some (track_sel x m t)
  | _ =>
      let saved := t_pset t in
      let '(t, l, s) := track_sets m sets t in
      match assign_arg T (kid (role_of m) t) 1 (AValue saved) (t_ctx t) with
      | Some c => Some (t_with c t, l, s)
      | None => None
      end
  end.

(* ---- beam-beam elements ---- *)
Definition BB4 : chars := lit "SIXTRL_TRACK_BEAMBEAM4D".
Definition BB6 : chars := lit "SIXTRL_TRACK_BEAMBEAM6D".
Section BeamBeam.
Variable ENABLED : chars. (* SIXTRL_TRACK_MAP_ENABLED_STR *)
(* context.cpp 1661-1670: is_beam_beam_tracking_enabled *)
Definition bb_enabled (c : ctx) : bool :=
  let on s := negb (has_feature_flag T s c) || match feature_flag T s c with Some v => chars_eqb v ENABLED | None => false end in
  on BB4 && on BB6.
End BeamBeam.
(* context.cpp 1672-1683, 1685-1697, 1701-1713: enable_, skip_, disable_beam_beam_tracking with the value of
   the flags; the default programs of the base class only (simplification) *)
Definition set_bb (e : env) (v : chars) (c : ctx) : ctx :=
  if has_node T c then c else fst (reinit T N e (set_feature_flag T BB6 v (set_feature_flag T BB4 v c))).

(* ---- histories ---- *)
Inductive top : Set :=
| TParticles (a : Z) | TElements (a : Z) | TOutput (a : Z) | TConfig (a : Z) | TConfigIndex (i : Z)
| TAddr (a : Z) | TSet (p n : Z) | TWgs (k : role) (w : Z) | TTrack (x : tenv) (m : cmd) | TTrackSet (x : tenv) (m : cmd) (p n : Z)
| TJob (m : cmd) (sets : list (Z * Z * tenv)) | TFetch (x : tenv).

Definition quiet (r : tctx * Z) : option (tctx * list launch * Z) := Some (fst r, [], snd r).
(* the context afterwards, the kernels executed and the returned status *)
Definition tstep (o : top) (t : tctx) : option (tctx * list launch * Z) :=
  match o with
  | TParticles a => quiet (assign_particles true a t)
  | TElements a => quiet (assign_elements true a t)
  | TOutput a => quiet (assign_output true a t)
  | TConfig a => quiet (assign_config true a t)
  | TConfigIndex i => quiet (assign_config_index i t)
  | TAddr a => quiet (assign_addr true a t)
  | TSet p n => quiet (assign_set p n t)
  | TWgs k w => let '(c, b) := set_wgs T (kid k t) w (t_ctx t) in Some (t_with c t, [], 0)
  | TTrack x m => Some (track_sel x m t)
  | TTrackSet x m p n => Some (track_set x m p n true t)
  | TJob m sets => track_job m sets t
  | TFetch x => Some (fetch x t)
  end.
Fixpoint tsteps (h : list top) (t : tctx) : option (tctx * list launch * list Z) :=
  match h with
  | [] => Some (t, [], [])
  | o :: h =>
      match tstep o t with
      | Some (t, l, s) =>
          match tsteps h t with Some (t, l', ss) => Some (t, l ++ l', s :: ss) | None => None end
      | None => None
      end
  end.
End Track.
