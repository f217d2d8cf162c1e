(* A track job on a device: its arguments, reset, push and collect.
   sixtracklib/common/track/track_job_ctrl_arg_base.cpp, cuda/track/track_job.cpp,
   cuda/control/argument.cpp (construction from a buffer), common/track/track_job_base.cpp
   (collect, push).

   Simplifications: the job uses five buffers, at fixed positions of the list dj_bufs: the
   particles, the beam elements, the output, the table of particle addresses and the
   element-by-element configuration; two of them are never the same buffer.  The debug register
   and the stored buffers of the user are left out, so is the bit of the debug register in the
   flags.  What the base class does on the host when the job is reset is an argument of reset
   (host): whether its steps succeed and which parts are needed; the buffers of dj_bufs are those
   it leaves.  The kernels that assign the output are device writes; here only their status.
   Devices, controllers, status and None: as in DeviceArg. *)
From Coq Require Import ZArith List Bool.
From Verif Require Import MBuf MemPool Buffer DeviceArg.
Import ListNotations.
Local Open Scope Z_scope.

Inductive role := Parts | Elems | Out | Addr | Conf.
Definition pos (r : role) : nat :=
  match r with Parts => 0 | Elems => 1 | Out => 2 | Addr => 3 | Conf => 4 end.

(* track/definitions.h 44-66, 141-162: the flags of the transfers *)
Definition flag (r : role) : Z := match r with Parts => 1 | Elems => 2 | Out => 4 | Addr => 16 | Conf => 0 end.
Definition COLLECT_ALL : Z := 31.
Definition PUSH_ALL : Z := 15.

(* track_job_base.hpp 1435-1440: IsCollectFlagSet *)
Definition flag_set (flags f : Z) : bool := Z.land flags f =? f.

(* track_job_ctrl_arg_base.hpp: the stored arguments; track_job_base.hpp: which buffers the job
   has pointers to *)
Record djob := DJob { dj_bufs : list buffer; dj_args : list (option arg); dj_has : list bool }.
Definition arg_of (j : djob) (r : role) : option arg :=
  match nth_error (dj_args j) (pos r) with Some x => x | None => None end.
Definition has (j : djob) (r : role) : bool := nth (pos r) (dj_has j) false.
Definition put_arg (j : djob) (r : role) (a : arg) : djob :=
  DJob (dj_bufs j) (put (dj_args j) (pos r) (Some a)) (dj_has j).
Definition put_world (j : djob) (r : role) (w : world) : djob :=
  DJob (w_bufs w) (put (dj_args j) (pos r) (Some (w_arg w))) (dj_has j).
Definition world_of (j : djob) (a : arg) : world := World (dj_bufs j) [] a.

(* track_job_ctrl_arg_base.cpp 1020-1043: doClear...Structures: no arguments *)
Definition cleared (bufs : list buffer) : djob :=
  DJob bufs [None; None; None; None; None] [false; false; false; false; false].

(* cuda/control/controller.cpp 1044-1092: doRemapCObjectsBufferDirectly *)
Definition remap_directly (c : ctrl) (a : arg) : option (bool * arg) :=
  match a_dev a with
  | Some m =>
    if c_run c && (if c_debug c then c_debug_kernel c else c_kernel c)
    then '(ok, m') <- mb_remap m (mbase m) ;; Some (if c_debug c then ok else true, set_dev a m')
    else Some (false, a)
  | None => Some (false, a)
  end.

(* cuda/control/argument.cpp 43-82 (C++ buffer) and 84-122 (C buffer): a new argument from buffer
   number i; the caller gets no status *)
Definition arg_from (cx : option ctrl) (dv : device) (cxx : bool) (i : nat) (b : buffer) : option arg :=
  let n := data_size (b_h b) in
  let '(_, a) := reserve_arg (d_heap dv) new_arg n in
  match cx with
  | Some c =>
    if (0 <? n) && (n <=? a_cap a) && c_send c && ready_for_remap c then
      ws <- buffer_words b ;;
      '(ok, a) <- do_send dv a (data_addr (b_h b)) ws ;;
      if ok then
        '(ok, a) <- remap_directly c a ;;
        if ok then
          let a := set_size a n in Some (if cxx then set_buffer_ref a i else set_c a (Some i))
        else Some a
      else Some a
    else Some a
  | None => Some a
  end.

Definition refers (p : option nat) (r : role) : bool := same p (pos r).

(* cuda/track/track_job.cpp 1167-1244: doPrepareParticlesStructuresCudaImpl; the status of the
   table of addresses stays when the particles do not arrive *)
Definition prepare_particles (cx : option ctrl) (dvs : role -> device) (has_addr : bool) (j : djob)
  : option (bool * djob) :=
  match cx with
  | None => Some (false, j)
  | Some _ =>
    '(st, j) <- (if has_addr then
        b <- nth_error (dj_bufs j) (pos Addr) ;;
        a <- arg_from cx (dvs Addr) true (pos Addr) b ;;
        Some (refers (a_cxx a) Addr, put_arg j Addr a)
      else Some (false, j)) ;;
    b <- nth_error (dj_bufs j) (pos Parts) ;;
    a <- arg_from cx (dvs Parts) false (pos Parts) b ;;
    if st && refers (a_c a) Parts then Some (true, put_arg j Parts a) else Some (st, j)
  end.

(* 1246-1281: doPrepareBeamElementsStructuresCudaImpl *)
Definition prepare_elements (cx : option ctrl) (dvs : role -> device) (j : djob) : option (bool * djob) :=
  match cx with
  | None => Some (false, j)
  | Some _ =>
    b <- nth_error (dj_bufs j) (pos Elems) ;;
    a <- arg_from cx (dvs Elems) false (pos Elems) b ;;
    if refers (a_c a) Elems then Some (true, put_arg j Elems a) else Some (false, j)
  end.

(* 1283-1398: doPrepareOutputStructuresCudaImpl; [conf]: there is a configuration; it is sent by
   the constructor and again by send *)
Definition prepare_output (cx : option ctrl) (dvs : role -> device) (again : device) (conf : bool) (j : djob)
  : option (bool * djob) :=
  match cx with
  | None => Some (false, j)
  | Some _ =>
    '(st, j) <- (if conf then
        b <- nth_error (dj_bufs j) (pos Conf) ;;
        a <- arg_from cx (dvs Conf) true (pos Conf) b ;;
        '(st, w) <- send_buffer cx again true (pos Conf) true (world_of j a) ;;
        Some (st && refers (a_cxx (w_arg w)) Conf, put_world j Conf w)
      else Some (true, j)) ;;
    if st : bool then
      b <- nth_error (dj_bufs j) (pos Out) ;;
      a <- arg_from cx (dvs Out) false (pos Out) b ;;
      Some (refers (a_c a) Out, put_arg j Out a)
    else Some (false, j)
  end.

(* what the host side of the reset says: status of the preparation of the particles, the elements,
   the kernels, the output, of the assignment of the output to the configuration and to the
   monitors, and of the kernels that do it on the device; what is needed or there *)
Record host := Host {
  h_parts : bool; h_elems : bool; h_kernels : bool; h_output : bool; h_ebe : bool; h_mon : bool;
  k_ebe : bool; k_mon : bool; need_ebe : bool; need_mon : bool; given_out : bool; has_out : bool;
  has_conf : bool; has_addr : bool }.

(* 1476-1556, 1404-1474: the conditions of the assignments on the device *)
Definition assign_ebe (h : host) (j : djob) : bool :=
  match arg_of j Out, arg_of j Conf with
  | Some o, Some e => refers (a_c o) Out && refers (a_cxx e) Conf && k_ebe h
  | _, _ => false
  end.
Definition assign_mon (h : host) (j : djob) : bool :=
  match arg_of j Out, arg_of j Elems with
  | Some o, Some e => refers (a_c o) Out && refers (a_c e) Elems && k_mon h
  | _, _ => false
  end.

(* cuda/track/track_job.cpp 1654-1764: doResetCudaImpl after the clear of
   track_job_base.cpp 317-392 *)
Definition reset (cx : option ctrl) (dvs : role -> device) (again : device) (h : host) (bufs : list buffer)
  : option (bool * djob) :=
  let j := cleared bufs in
  '(st, j) <- (if h_parts h then prepare_particles cx dvs (has_addr h) j else Some (false, j)) ;;
  let st := st && h_elems h in
  '(st, j) <- (if st : bool then prepare_elements cx dvs j else Some (st, j)) ;;
  let st := st && h_kernels h in
  let needed := need_ebe h || need_mon h in
  let j := DJob (dj_bufs j) (dj_args j) [st; st; has_out h; has_addr h; has_conf h] in
  '(st, j) <- (if needed || given_out h then
      (if h_output h && has_out h then prepare_output cx dvs again (has_conf h) j else Some (false, j))
    else Some (st, j)) ;;
  let st := if st && has_out h && needed then
      let st := if need_ebe h then h_ebe h && assign_ebe h j else st in
      if need_mon h then st && h_mon h && assign_mon h j else st
    else if st && needed then has_out h else st in
  Some (st, j).

(* track_job_ctrl_arg_base.cpp 621-686: one part of doPush *)
Definition push_one (cx : option ctrl) (dv : device) (flags : Z) (r : role) (j : djob) : option (Z * djob) :=
  match arg_of j r with
  | Some a =>
    if flag_set flags (flag r) && given (a_c a) && has j r then
      '(st, w) <- send_buffer cx dv false (pos r) true (world_of j a) ;;
      Some (if st : bool then flag r else 0, put_world j r w)
    else Some (0, j)
  | None => Some (0, j)
  end.

Definition and_then (f : djob -> option (Z * djob)) (x : option (Z * djob)) : option (Z * djob) :=
  '(res, j) <- x ;; '(f1, j) <- f j ;; Some (Z.lor res f1, j).

Definition do_push (cx : option ctrl) (dvs : role -> device) (flags : Z) (j : djob) : option (Z * djob) :=
  and_then (push_one cx (dvs Out) flags Out)
  (and_then (push_one cx (dvs Elems) flags Elems)
  (and_then (push_one cx (dvs Parts) flags Parts) (Some (0, j)))).

(* track_job_base.cpp 195-198: push *)
Definition push (cx : option ctrl) (dvs : role -> device) (flags : Z) (j : djob) : option (Z * djob) :=
  do_push cx dvs (Z.land flags PUSH_ALL) j.

(* track_job_ctrl_arg_base.cpp 520-612: one part of doCollect; the addresses need the argument to
   refer to the C++ buffer of the job *)
Definition collect_one (cx : option ctrl) (dv : device) (flags : Z) (r : role) (j : djob) : option (Z * djob) :=
  match arg_of j r with
  | Some a =>
    if flag_set flags (flag r) && (match r with Addr => refers (a_cxx a) Addr | _ => given (a_c a) end) && has j r then
      '(st, w) <- receive_buffer cx dv (pos r) true (world_of j a) ;;
      Some (if st : bool then flag r else 0, put_world j r w)
    else Some (0, j)
  | None => Some (0, j)
  end.

Definition do_collect (cx : option ctrl) (dvs : role -> device) (flags : Z) (j : djob) : option (Z * djob) :=
  and_then (collect_one cx (dvs Addr) flags Addr)
  (and_then (collect_one cx (dvs Out) flags Out)
  (and_then (collect_one cx (dvs Elems) flags Elems)
  (and_then (collect_one cx (dvs Parts) flags Parts) (Some (0, j))))).

(* track_job_base.cpp 87-90: collect *)
Definition collect (cx : option ctrl) (dvs : role -> device) (flags : Z) (j : djob) : option (Z * djob) :=
  do_collect cx dvs (Z.land flags COLLECT_ALL) j.
