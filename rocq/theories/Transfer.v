(* Model of the collect, push and clear flags of track jobs and of the transfers they steer
   (/repo/sixtracklib/common/track/track_job_base.{hpp,cpp}, track_job_ctrl_arg_base.cpp,
   definitions.h). Flags are 16-bit unsigned integers, represented by Z. *)
From Coq Require Import ZArith List Bool.
Import ListNotations.
Local Open Scope Z_scope.

(* definitions.h 140-163 *)
Definition IO_PARTICLES : Z := 1.
Definition IO_BEAM_ELEMENTS : Z := 2.
Definition IO_OUTPUT : Z := 4.
Definition IO_DEBUG_REGISTER : Z := 8.
Definition IO_PARTICLES_ADDR : Z := 16.
Definition COLLECT_ALL : Z := 31.
Definition PUSH_ALL : Z := 15.
Definition IO_DEFAULT : Z := 5.

(* definitions.h 176-203 *)
Definition CLEAR_PARTICLES : Z := 1.
Definition CLEAR_BEAM_ELEMENTS : Z := 2.
Definition CLEAR_OUTPUT : Z := 4.
Definition CLEAR_CONTROLLER : Z := 8.
Definition CLEAR_KERNELS : Z := 16.
Definition CLEAR_DEFAULT : Z := 7.
Definition CLEAR_ALL : Z := 31.

(* IsCollectFlagSet, IsClearFlagSet, track_job_base.hpp 1435-1447 *)
Definition is_set (flags flag : Z) : bool := Z.land flags flag =? flag.
(* UnsetClearFlag, UnsetCollectFlag, track_job_base.hpp 1449-1463; the operand of ~ is promoted to
   int, the result converted back to 16 bits *)
Definition unset (flags flag : Z) : Z := (Z.land flags (Z.lnot flag)) mod 2 ^ 16.

(* ---- the collect flags of a job (m_collect_flags), track_job_base.cpp 127-186, 1767 ---- *)
Definition initial_flags : Z := IO_DEFAULT.
Inductive flag_op : Set :=
| EnableParticles | DisableParticles
| EnableBeamElements | DisableBeamElements
| EnableOutput | DisableOutput
| SetFlags (f : Z).

Definition apply_op (o : flag_op) (flags : Z) : Z :=
  match o with
  | EnableParticles => Z.lor flags IO_PARTICLES
  | DisableParticles => unset flags IO_PARTICLES
  | EnableBeamElements => Z.lor flags IO_BEAM_ELEMENTS
  | DisableBeamElements => unset flags IO_BEAM_ELEMENTS
  | EnableOutput => Z.lor flags IO_OUTPUT
  | DisableOutput => unset flags IO_OUTPUT
  | SetFlags f => Z.land f COLLECT_ALL
  end.
Definition is_collecting_particles (flags : Z) : bool := is_set flags IO_PARTICLES.
Definition is_collecting_beam_elements (flags : Z) : bool := is_set flags IO_BEAM_ELEMENTS.
Definition is_collecting_output (flags : Z) : bool := is_set flags IO_OUTPUT.

(* ---- transfers ---- *)
(* A part of the job's data, with its copies on host and device. [avail]: there is an argument for
   it of the right kind and a host buffer (the pointer tests of doCollect / doPush). [works]: what
   the transfer of that part reports. A transfer that fails leaves both sides alone (receive and
   send of the argument classes are not modelled further). *)
Section Transfer.
Context {V : Type}.
Record part := mkPart { avail : bool; works : bool; host : V; device : V }.
Record parts := mkParts { pt_particles : part; pt_belems : part; pt_output : part; pt_debug : part; pt_addr : part }.

(* one if-block of TrackJobCtrlArgBase::doCollect: receive *)
Definition receive (flags flag : Z) (p : part) : part * Z :=
  if is_set flags flag && avail p
  then if works p then (mkPart (avail p) (works p) (device p) (device p), flag) else (p, 0)
  else (p, 0).
(* one if-block of TrackJobCtrlArgBase::doPush: send *)
Definition send (flags flag : Z) (p : part) : part * Z :=
  if is_set flags flag && avail p
  then if works p then (mkPart (avail p) (works p) (host p) (host p), flag) else (p, 0)
  else (p, 0).

(* TrackJobCtrlArgBase::doCollect, track_job_ctrl_arg_base.cpp 526-620 *)
Definition dev_collect (flags : Z) (d : parts) : parts * Z :=
  let '(a, ra) := receive flags IO_PARTICLES (pt_particles d) in
  let '(b, rb) := receive flags IO_BEAM_ELEMENTS (pt_belems d) in
  let '(c, rc) := receive flags IO_OUTPUT (pt_output d) in
  let '(e, re) := receive flags IO_DEBUG_REGISTER (pt_debug d) in
  let '(f, rf) := receive flags IO_PARTICLES_ADDR (pt_addr d) in
  (mkParts a b c e f, Z.lor (Z.lor (Z.lor (Z.lor ra rb) rc) re) rf).

(* TrackJobCtrlArgBase::doPush, track_job_ctrl_arg_base.cpp 622-703 *)
Definition dev_push (flags : Z) (d : parts) : parts * Z :=
  let '(a, ra) := send flags IO_PARTICLES (pt_particles d) in
  let '(b, rb) := send flags IO_BEAM_ELEMENTS (pt_belems d) in
  let '(c, rc) := send flags IO_OUTPUT (pt_output d) in
  let '(e, re) := send flags IO_DEBUG_REGISTER (pt_debug d) in
  (mkParts a b c e (pt_addr d), Z.lor (Z.lor (Z.lor ra rb) rc) re).

(* collect() and collect( flags ), track_job_base.cpp 82-90 *)
Definition collect (job_flags : Z) (d : parts) : parts * Z := dev_collect job_flags d.
Definition collect_flags (f : Z) (d : parts) : parts * Z := dev_collect (Z.land f COLLECT_ALL) d.
(* push( flags ), track_job_base.cpp 195-198 *)
Definition push_flags (f : Z) (d : parts) : parts * Z := dev_push (Z.land f PUSH_ALL) d.
(* collectParticles and its siblings, track_job_base.cpp 92-125; pushParticles and siblings,
   200-219 *)
Definition collect_part (flag : Z) (d : parts) : parts * Z :=
  let '(d', r) := dev_collect flag d in (d', if is_set r flag then 0 else -1).
Definition push_part (flag : Z) (d : parts) : parts * Z :=
  let '(d', r) := push_flags flag d in (d', if Z.land flag r =? flag then 0 else -1).
End Transfer.
Arguments part : clear implicits.
Arguments parts : clear implicits.

(* TrackJobBaseNew::doCollect and doPush, track_job_base.cpp 2180-2190: jobs on the CPU share the
   memory of the host, there is nothing to transfer *)
Definition cpu_collect (flags : Z) : Z := Z.land flags COLLECT_ALL.
Definition cpu_push (flags : Z) : Z := Z.land flags PUSH_ALL.

(* ---- clear flags ---- *)
(* doPrepareResetClearFlags, track_job_base.cpp 2630-2677. The arguments say whether the buffers
   handed to reset are (non-null and) those the job already uses, and whether the particle set
   indices are the same. *)
Definition prepare_reset_flags (default : Z) (same_pbuffer same_sets same_belems same_output : bool) : Z :=
  let f1 := if is_set default CLEAR_PARTICLES && same_pbuffer && same_sets then unset default CLEAR_PARTICLES else default in
  let f2 := if is_set f1 CLEAR_BEAM_ELEMENTS && same_belems then unset f1 CLEAR_BEAM_ELEMENTS else f1 in
  if is_set f2 CLEAR_OUTPUT && same_output then unset f2 CLEAR_OUTPUT else f2.

Inductive cleared := ClKernels | ClController | ClParticles | ClBeamElements | ClOutput.

(* TrackJobBaseNew::doClear, track_job_base.cpp 2157-2178: the parts cleared, in order *)
Definition base_clear (flags : Z) : list cleared :=
  (if is_set flags CLEAR_PARTICLES then [ClParticles] else []) ++
  (if is_set flags CLEAR_BEAM_ELEMENTS then [ClBeamElements] else []) ++
  (if is_set flags CLEAR_OUTPUT then [ClOutput] else []).
(* TrackJobCtrlArgBase::doClear, track_job_ctrl_arg_base.cpp 473-493 *)
Definition dev_clear (flags : Z) : list cleared :=
  (if is_set flags CLEAR_KERNELS then [ClKernels] else []) ++
  (if is_set flags CLEAR_CONTROLLER then [ClController] else []) ++ base_clear flags.
