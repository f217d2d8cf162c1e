(* Comparing particle sets and buffers of particles: sixtracklib/common/particles.h
   3128-3416 and 3828-4029.

   Sets are those of ParticleSet.v (lists for the attribute arrays; None = an access outside
   an array, i.e. undefined behaviour; int64 values are unbounded integers), the objects of a
   buffer those of ParticleIds.v.  Buffers are not NULL, and different arguments are different
   buffers (SIXTRL_RESTRICT). *)
From Coq Require Import ZArith List Bool.
From Verif Require Import Num Particle Elements ParticleSet ParticleIds.
Import ListNotations.
Local Open Scope Z_scope.
Set Implicit Arguments.

Section Diff.
Variables (T : Type) (N : NumOps T).

(* diff->a[ i ] = lhs->a[ i ] - rhs->a[ i ] *)
Definition diff_value {A : Type} (sub : A -> A -> A) (get : pset T -> list A) (put : list A -> pset T -> pset T)
    (i : Z) (lhs rhs : pset T) (d : pset T) : option (pset T) :=
  u <- aget (get lhs) i ;; v <- aget (get rhs) i ;; set_value get put i (sub u v) d.

(* particles.h 3149-3229: loop body of Particles_calculate_difference *)
Definition diff_values (lhs rhs : pset T) (i : Z) (d : pset T) : option (pset T) :=
  d <- diff_value (nsub N) (@ps_q0 T) (@with_q0 T) i lhs rhs d ;;
  d <- diff_value (nsub N) (@ps_mass0 T) (@with_mass0 T) i lhs rhs d ;;
  d <- diff_value (nsub N) (@ps_beta0 T) (@with_beta0 T) i lhs rhs d ;;
  d <- diff_value (nsub N) (@ps_gamma0 T) (@with_gamma0 T) i lhs rhs d ;;
  d <- diff_value (nsub N) (@ps_p0c T) (@with_p0c T) i lhs rhs d ;;
  d <- diff_value (nsub N) (@ps_s T) (@with_s T) i lhs rhs d ;;
  d <- diff_value (nsub N) (@ps_x T) (@with_x T) i lhs rhs d ;;
  d <- diff_value (nsub N) (@ps_y T) (@with_y T) i lhs rhs d ;;
  d <- diff_value (nsub N) (@ps_px T) (@with_px T) i lhs rhs d ;;
  d <- diff_value (nsub N) (@ps_py T) (@with_py T) i lhs rhs d ;;
  d <- diff_value (nsub N) (@ps_zeta T) (@with_zeta T) i lhs rhs d ;;
  d <- diff_value (nsub N) (@ps_psigma T) (@with_psigma T) i lhs rhs d ;;
  d <- diff_value (nsub N) (@ps_delta T) (@with_delta T) i lhs rhs d ;;
  d <- diff_value (nsub N) (@ps_rpp T) (@with_rpp T) i lhs rhs d ;;
  d <- diff_value (nsub N) (@ps_rvv T) (@with_rvv T) i lhs rhs d ;;
  d <- diff_value (nsub N) (@ps_chi T) (@with_chi T) i lhs rhs d ;;
  d <- diff_value (nsub N) (@ps_charge_ratio T) (@with_charge_ratio T) i lhs rhs d ;;
  d <- diff_value Z.sub (@ps_particle_id T) (@with_particle_id T) i lhs rhs d ;;
  d <- diff_value Z.sub (@ps_at_element_id T) (@with_at_element_id T) i lhs rhs d ;;
  d <- diff_value Z.sub (@ps_at_turn T) (@with_at_turn T) i lhs rhs d ;;
  d <- diff_value Z.sub (@ps_state T) (@with_state T) i lhs rhs d ;;
  Some d.

(* particles.h 3121-3228: Particles_calculate_difference *)
Definition calculate_difference (lhs rhs d : pset T) : option (pset T) :=
  let num := ps_num lhs in
  if (0 <? num) && (num =? ps_num rhs) && (num =? ps_num d) then
    for_from (diff_values lhs rhs) 0 (Z.to_nat num) d
  else Some d.

(* particles.h 3357-3379 and 3383-3404: the value with the largest absolute value among
   a[ 0 ], ..., a[ n - 1 ], and its index.  State: max_value, cmp_max_value, index *)
Definition max_step {A : Type} (abs : A -> A) (ltb : A -> A -> bool) (a : list A) (kk : Z) (st : A * A * Z) : option (A * A * Z) :=
  let '(mv, cmp, idx) := st in
  value <- aget a kk ;;
  let cmp_value := abs value in
  Some (if ltb cmp cmp_value then (value, cmp_value, kk) else (mv, cmp, idx)).
Definition max_of {A : Type} (zero : A) (abs : A -> A) (ltb : A -> A -> bool) (a : list A) (n : Z) : option (A * Z) :=
  r <- for_from (max_step abs ltb a) 0 (Z.to_nat n) (zero, zero, 0) ;;
  let '(mv, _, idx) := r in Some (mv, idx).

(* value >= 0 ? value : -value *)
Definition abs_real (v : T) : T := if nleb N (nzero N) v then v else nopp N v.
(* value > 0 ? value : -value *)
Definition abs_index (v : Z) : Z := if 0 <? v then v else - v.

(* one attribute: the maximum goes to the first entry of the destination's array, its index to
   the list of indices *)
Definition max_value {A : Type} (zero : A) (abs : A -> A) (ltb : A -> A -> bool) (get : pset T -> list A)
    (put : list A -> pset T -> pset T) (n : Z) (src : pset T) (r : pset T * list Z) : option (pset T * list Z) :=
  let '(d, idx) := r in
  m <- max_of zero abs ltb (get src) n ;;
  let '(mv, k) := m in
  d <- set_value get put 0 mv d ;; Some (d, idx ++ [k]).
Definition max_real := @max_value T (nzero N) abs_real (nltb N).
Definition max_index := @max_value Z 0 abs_index Z.ltb.

(* particles.h 3230-3420: Particles_get_max_value; the result is the destination and, if
   something was computed, the 21 indices.  The number of values read from the source's
   arrays is the number of particles of the destination (3323-3354). *)
Definition get_max_value (dest source : pset T) : option (pset T * option (list Z)) :=
  if (0 <? ps_num dest) && (0 <? ps_num source) then
    let n := ps_num dest in
    let r := (dest, []) in
    r <- max_real (@ps_q0 T) (@with_q0 T) n source r ;;
    r <- max_real (@ps_beta0 T) (@with_beta0 T) n source r ;;
    r <- max_real (@ps_mass0 T) (@with_mass0 T) n source r ;;
    r <- max_real (@ps_gamma0 T) (@with_gamma0 T) n source r ;;
    r <- max_real (@ps_p0c T) (@with_p0c T) n source r ;;
    r <- max_real (@ps_s T) (@with_s T) n source r ;;
    r <- max_real (@ps_x T) (@with_x T) n source r ;;
    r <- max_real (@ps_y T) (@with_y T) n source r ;;
    r <- max_real (@ps_px T) (@with_px T) n source r ;;
    r <- max_real (@ps_py T) (@with_py T) n source r ;;
    r <- max_real (@ps_zeta T) (@with_zeta T) n source r ;;
    r <- max_real (@ps_psigma T) (@with_psigma T) n source r ;;
    r <- max_real (@ps_delta T) (@with_delta T) n source r ;;
    r <- max_real (@ps_rpp T) (@with_rpp T) n source r ;;
    r <- max_real (@ps_rvv T) (@with_rvv T) n source r ;;
    r <- max_real (@ps_chi T) (@with_chi T) n source r ;;
    r <- max_real (@ps_charge_ratio T) (@with_charge_ratio T) n source r ;;
    r <- max_index (@ps_particle_id T) (@with_particle_id T) n source r ;;
    r <- max_index (@ps_at_element_id T) (@with_at_element_id T) n source r ;;
    r <- max_index (@ps_at_turn T) (@with_at_turn T) n source r ;;
    r <- max_index (@ps_state T) (@with_state T) n source r ;;
    Some (fst r, Some (snd r))
  else Some (dest, None).

(* ---------------- buffers ---------------- *)

(* particles.h 2652-2668: the particles of an object; None: NULL, for objects that are not
   larger than the handle *)
Definition particles_of (o : pobj T) : option (pset T) :=
  match o with Part p => if 0 <? ps_num p then Some p else None | Other => None end.
(* particles.h 2625-2631: the number of particles, 0 for NULL *)
Definition count_of (o : pobj T) : Z := match particles_of o with Some p => ps_num p | None => 0 end.

(* particles.h 3866-3893: the loop over both buffers *)
Fixpoint same_structure_loop (lhs rhs : list (pobj T)) : bool :=
  match lhs, rhs with
  | l :: lr, r :: rr =>
    match l, r with
    | Part _, Part _ => if count_of l =? count_of r then same_structure_loop lr rr else false
    | _, _ => false
    end
  | _, _ => true
  end.
(* particles.h 3828-3892: Particles_buffers_have_same_structure; the addresses of the object
   lists are never 0 *)
Definition same_structure (lhs rhs : list (pobj T)) : bool :=
  if Z.of_nat (length lhs) =? Z.of_nat (length rhs) then same_structure_loop lhs rhs else false.

(* particles.h 3926-3940: the loop of Particles_buffers_calculate_difference; a set that is
   NULL is left alone by 3137-3142 *)
Fixpoint difference_loop (lhs rhs d : list (pobj T)) : option (list (pobj T)) :=
  match lhs, rhs, d with
  | l :: lr, r :: rr, x :: xr =>
    x' <- match particles_of l, particles_of r, particles_of x with
          | Some pl, Some pr, Some px => q <- calculate_difference pl pr px ;; Some (Part q)
          | _, _, _ => Some x
          end ;;
    rest <- difference_loop lr rr xr ;; Some (x' :: rest)
  | [], _, _ => Some d
  | _, _, _ => None
  end.
(* particles.h 3894-3940: Particles_buffers_calculate_difference *)
Definition buffers_difference (lhs rhs d : list (pobj T)) : option (list (pobj T)) :=
  if same_structure lhs d && same_structure rhs d then difference_loop lhs rhs d else Some d.

(* particles.h 3972-3987: the loop of Particles_buffer_get_max_value.  It advances src_end and
   dest_it, but not src_it: source number 0 is used every time, and the loop does not end
   before dest_it has left the list of objects (undefined: None). *)
Fixpoint buffer_max_loop (src : pobj T) (dest done : list (pobj T)) (idx : list (option (list Z)))
  : option (list (pobj T) * list (option (list Z))) :=
  match dest with
  | [] => None
  | d :: rest =>
    r <- match particles_of d, particles_of src with
         | Some pd, Some ps => r <- get_max_value pd ps ;; Some (Part (fst r), snd r)
         | _, _ => Some (d, None)
         end ;;
    let '(d', k) := r in buffer_max_loop src rest (done ++ [d']) (idx ++ [k])
  end.
(* particles.h 3942-3990: Particles_buffer_get_max_value *)
Definition buffer_max (dest src : list (pobj T)) : option (list (pobj T) * list (option (list Z))) :=
  match src with
  | [] => Some (dest, [])
  | s :: _ => if Z.of_nat (length src) =? Z.of_nat (length dest) then buffer_max_loop s dest [] []
              else Some (dest, [])
  end.

(* particles.h 3993-4027: Particles_buffer_clear_particles *)
Fixpoint clear_particles (objs : list (pobj T)) : option (list (pobj T)) :=
  match objs with
  | [] => Some []
  | Part p :: rest => p <- clear (nzero N) p ;; rest <- clear_particles rest ;; Some (Part p :: rest)
  | Other :: rest => rest <- clear_particles rest ;; Some (Other :: rest)
  end.

End Diff.
