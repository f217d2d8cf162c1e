(* Loops over a particle set: track/track.c 33-141, track/track_kernel_impl.h and
   track/track_kernel_opt_impl.h.  [track] stands for the per-particle function
   (Track_particle_until_turn_objs, ..._element_by_element_until_turn_objs or
   Track_particle_line_objs with its remaining arguments), a function from a particle and
   the memory elements may write to a particle, that memory and a status. *)
From Coq Require Import ZArith List Bool.
From Verif Require Import Num Particle Elements EbeConfig Track ParticleSet ParticleIds DebugReg.
Import ListNotations.
Local Open Scope Z_scope.

Set Implicit Arguments.

Definition of_opt {A} (m : option A) : res A := match m with Some a => Ok a | None => Undef end.

Section Kernels.
Variables (T M : Type).
Variable zero : T.
Variable track : particle T -> M -> res (particle T * M * Z).

(* The per-particle functions take the set and an index; they read and write the 21
   attributes at that index only.  Modelled as: read the particle, track it, write it. *)
Definition track_in_set (p : pset T) (i : Z) (o : M) : res (pset T * M * Z) :=
  bind (of_opt (pset_at p i)) (fun q =>
  bind (track q o) (fun r => let '(q, o, st) := r in
  bind (of_opt (copy_all_values i (pset_of [q]) 0 p)) (fun p => Ok (p, o, st)))).

(* track_kernel_impl.h 141-145, 297-301, 468-472 (stride) and track.c 49-53, 93-98, 134-138
   (stride 1): for( ; pidx < num_particles ; pidx += stride ) status |= track *)
Fixpoint plain_loop (fuel : nat) (num pidx stride : Z) (p : pset T) (o : M) (status : Z)
  : res (pset T * M * Z) :=
  if pidx <? num then
    match fuel with
    | O => NoFuel
    | S fuel =>
      bind (track_in_set p pidx o) (fun r => let '(p, o, st) := r in
        plain_loop fuel num (pidx + stride) stride p o (Z.lor status st))
    end
  else Ok (p, o, status).

(* track_kernel_opt_impl.h 168-180, 399-411, 628-639: the same with a local copy [loc] *)
Fixpoint opt_loop (fuel : nat) (num pidx stride : Z) (loc p : pset T) (o : M) (status : Z)
  : res (pset T * M * Z) :=
  if pidx <? num then
    match fuel with
    | O => NoFuel
    | S fuel =>
      bind (of_opt (copy_from_generic loc 0 p pidx)) (fun r => let '(loc, s1) := r in
      bind (track_in_set loc 0 o) (fun r => let '(loc, o, s2) := r in
      bind (of_opt (copy_to_generic p pidx loc 0)) (fun r => let '(p, s3) := r in
        opt_loop fuel num (pidx + stride) stride loc p o
          (Z.lor (Z.lor (Z.lor status s1) s2) s3))))
    end
  else Ok (p, o, status).

(* the local particle set: init_from_flat_arrays over 17 zero reals and 4 zero indices *)
Definition local_set : option (pset T) := init_from_flat_arrays 1 (repeat zero 17) (repeat 0 4).

(* number of iterations needed at most *)
Definition steps (num pidx : Z) : nat := Z.to_nat (num - pidx).

(* One kernel call on a particle set *)
Definition plain_kernel (pidx stride : Z) (p : pset T) (o : M) : res (pset T * M * Z) :=
  plain_loop (steps (ps_num p) pidx) (ps_num p) pidx stride p o 0.
Definition opt_kernel (pidx stride : Z) (p : pset T) (o : M) : res (pset T * M * Z) :=
  bind (of_opt local_set) (fun loc =>
    opt_loop (steps (ps_num p) pidx) (ps_num p) pidx stride loc p o 0).

(* track.c 33-56, 73-101, 117-141: Track_all_particles_... *)
Definition track_all (p : pset T) (o : M) : res (pset T * M * Z) := plain_kernel 0 1 p o.

(* A launch runs one kernel call per work-item; the work-items are given in the order in
   which they run (track_kernel.cl / the CUDA kernels: pidx is the global id, stride the
   number of work-items).  The status of the launch is the union of the statuses. *)
Fixpoint launch (kernel : Z -> pset T -> M -> res (pset T * M * Z)) (items : list Z)
    (p : pset T) (o : M) (status : Z) : res (pset T * M * Z) :=
  match items with
  | [] => Ok (p, o, status)
  | i :: rest => bind (kernel i p o) (fun r => let '(p, o, st) := r in
      launch kernel rest p o (Z.lor status st))
  end.

(* The kernels on a particles buffer (its objects) and a set index.  The set is found by
   Particles_managed_buffer_get_particles: a null pointer has no particles. *)
Definition put_obj (objs : list (pobj T)) (i : Z) (p : pset T) : list (pobj T) :=
  upd objs (Z.to_nat i) (Part p).

(* track_kernel_impl.h 102-147, 252-306, 425-474 *)
Definition plain_buffer_kernel (objs : list (pobj T)) (set pidx stride : Z) (o : M)
  : res (list (pobj T) * M * Z) :=
  bind (of_opt (get_const_particles objs set)) (fun q =>
    match q with
    | Some p => bind (plain_kernel pidx stride p o) (fun r => let '(p, o, st) := r in
                  Ok (put_obj objs set p, o, st))
    | None => Ok (objs, o, 0)
    end).

(* track_kernel_opt_impl.h 112-183, 324-414, 558-642: the object is dereferenced without
   a null check; an index that is not below the number of objects is undefined. *)
Definition opt_buffer_kernel (objs : list (pobj T)) (set pidx stride : Z) (o : M)
  : res (list (pobj T) * M * Z) :=
  match aget objs set with
  | None => Undef
  | Some (Part p) => bind (opt_kernel pidx stride p o) (fun r => let '(p, o, st) := r in
                       Ok (put_obj objs set p, o, st))
  | Some Other => Ok (objs, o, 0)
  end.

(* ---------------------------------------------------------------------- *)
(* Debug kernels: track_kernel_impl.h 149-248, 308-421, 476-576 and track_kernel_opt_impl.h
   185-322, 416-556, 644-788.  Arguments: the buffers (None: null pointer) with the answer
   of needs_remapping, and two facts that differ between the three modes: [args_ok], the
   mode specific inner conditions (until_turn >= 0, or the line boundary test), and
   [cfg_ok], config_buffer is not null (element by element only).  [mode_flags]: the flags
   set in the inner else branch by the mode specific tests.
   Simplification: the object list of a buffer that needs remapping is not read. *)
Definition flag (k : Z) : Z := Z.shiftl MIN_FLAG k.

Definition outer_flags (pb be : bool) (slot_size pidx stride : Z) (cfg_ok : bool) : Z :=
  Z.lor (if pb then 0 else flag 1)
  (Z.lor (if be then 0 else flag 2)
  (Z.lor (if slot_size =? 0 then flag 3 else 0)
  (Z.lor (if pidx <? 0 then flag 0 else 0)
  (Z.lor (if stride <=? 0 then flag 0 else 0)
         (if cfg_ok then 0 else flag 9))))).

Definition debug_result (A : Type) (a : A) (status flags : Z) : res (A * Z * Z) :=
  if status =? 0 then Ok (a, status, flags)
  else bind (of_opt (store_arch_status flags status)) (fun fl => Ok (a, status, fl)).

(* result: objects, memory, status, flags *)
Definition debug_kernel (opt : bool) (pbuffer : option (bool * list (pobj T)))
    (belem_remap : option bool) (cfg_ok args_ok : bool) (mode_flags : Z)
    (set pidx stride slot_size : Z) (o : M)
  : res (option (list (pobj T)) * M * Z * Z) :=
  match pbuffer, belem_remap with
  | Some (p_remap, objs), Some be_remap =>
    if (0 <? slot_size) && cfg_ok && (0 <=? pidx) && (0 <? stride) then
      (* p != NULL, or in_particles != NULL *)
      bind (if opt then match aget objs set with None => Undef | Some _ => Ok true end
            else bind (of_opt (get_const_particles objs set))
                   (fun q => Ok (match q with Some _ => true | None => false end)))
        (fun p_ok =>
      if negb p_remap && negb be_remap && p_ok && args_ok then
        bind ((if opt then opt_buffer_kernel else plain_buffer_kernel) objs set pidx stride o)
          (fun r => let '(objs, o, st) := r in debug_result (Some objs, o) st 0)
      else
        debug_result (Some objs, o) (-1)
          (Z.lor (if p_remap then flag 5 else 0)
          (Z.lor (if be_remap then flag 6 else 0)
          (Z.lor (if negb p_ok || (Z.of_nat (length objs) <=? set) then flag 4 else 0)
                 mode_flags))))
    else debug_result (Some objs, o) (-1)
           (outer_flags true true slot_size pidx stride cfg_ok)
  | _, _ =>
    debug_result (match pbuffer with Some (_, objs) => Some objs | None => None end, o) (-1)
      (outer_flags (match pbuffer with Some _ => true | None => false end)
         (match belem_remap with Some _ => true | None => false end)
         slot_size pidx stride cfg_ok)
  end.

End Kernels.

(* line boundaries, track_kernel_impl.h 476-576: the pointers belem_begin + begin_id and
   belem_begin + end_id; pointers behind the end of the object list are undefined. *)
Definition line_range (E : Type) (elems : list E) (b e : Z) : option (list E) :=
  if (0 <=? b) && (b <=? e) && (e <=? Z.of_nat (length elems)) then
    Some (firstn (Z.to_nat (e - b)) (skipn (Z.to_nat b) elems))
  else None.

(* track_kernel_impl.h 529-533: the test of the debug kernel (begin_id, not end_id, is
   compared with the number of objects) *)
Definition line_debug_ok (E : Type) (elems : list E) (b e : Z) : bool :=
  (b <=? e) && (b <=? Z.of_nat (length elems)).
Definition line_debug_flags (E : Type) (elems : list E) (b e : Z) : Z :=
  if (e <? b) || (Z.of_nat (length elems) <? e) then flag 7 else 0.
