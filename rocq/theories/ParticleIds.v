(* Ranges of particle ids, elements and turns of particle sets, duplicate detection and
   lookup of particles by a global index: sixtracklib/common/particles.h and
   sixtracklib/common/particles/particles.c.

   Simplifications: int64 values are unbounded integers (so -id never overflows; only
   id = INT64_MIN differs).  malloc succeeds.  An object of a particle buffer is a
   particle set or an object of another type; particle objects have a non-NULL begin
   address and at least the size of the handle (they do after Particles_new, see C01).
   None / Undef = undefined behaviour. *)
From Coq Require Import ZArith List Bool.
From Verif Require Import Particle Elements Track ParticleSet.
Import ListNotations.
Local Open Scope Z_scope.
Set Implicit Arguments.

(* the six values passed by pointer; NULL pointers (values not asked for) are not
   modelled, each value is computed independently of the others *)
Record minmax := mkMinMax {
  mm_min_pid : Z; mm_max_pid : Z;
  mm_min_elem : Z; mm_max_elem : Z;
  mm_min_turn : Z; mm_max_turn : Z }.

Definition INT64_MAX : Z := 9223372036854775807.
Definition INT64_MIN : Z := -9223372036854775808.

(* particles.h 2169-2226: init_min_max_attributes_for_find *)
Definition minmax_init : minmax :=
  mkMinMax INT64_MAX INT64_MIN INT64_MAX INT64_MIN INT64_MAX INT64_MIN.

(* if( min > temp ) min = temp;  if( max < temp ) max = temp; *)
Definition keep_min (m temp : Z) : Z := if temp <? m then temp else m.
Definition keep_max (m temp : Z) : Z := if m <? temp then temp else m.
(* ( temp >= 0 ) ? temp : -temp *)
Definition iabs (temp : Z) : Z := if 0 <=? temp then temp else - temp.

(* particles.h 2389-2410: body of the loop *)
Definition minmax_step T (p : pset T) (ii : Z) (m : minmax) : option minmax :=
  id <- aget (ps_particle_id p) ii ;;
  el <- aget (ps_at_element_id p) ii ;;
  tn <- aget (ps_at_turn p) ii ;;
  Some (mkMinMax (keep_min (mm_min_pid m) (iabs id)) (keep_max (mm_max_pid m) (iabs id))
                 (keep_min (mm_min_elem m) el) (keep_max (mm_max_elem m) el)
                 (keep_min (mm_min_turn m) tn) (keep_max (mm_max_turn m) tn)).

(* particles.h 2359-2454: find_min_max_attributes; [m]: values before the call *)
Definition find_min_max T (p : pset T) (m : minmax) : option (minmax * Z) :=
  if 0 <? ps_num p then
    id <- aget (ps_particle_id p) 0 ;;
    el <- aget (ps_at_element_id p) 0 ;;
    tn <- aget (ps_at_turn p) 0 ;;
    r <- for_from (@minmax_step T p) 1 (Z.to_nat (ps_num p - 1))
           (mkMinMax (iabs id) (iabs id) el el tn tn) ;;
    Some (mkMinMax (keep_min (mm_min_pid m) (mm_min_pid r)) (keep_max (mm_max_pid m) (mm_max_pid r))
                   (keep_min (mm_min_elem m) (mm_min_elem r)) (keep_max (mm_max_elem m) (mm_max_elem r))
                   (keep_min (mm_min_turn m) (mm_min_turn r)) (keep_max (mm_max_turn m) (mm_max_turn r)),
          SUCCESS)
  else Some (m, FAILURE).

(* particles.c 443-461: Particles_get_min_max_attributes *)
Definition get_min_max T (p : pset T) : option (minmax * Z) := find_min_max p minmax_init.

(* objects of a buffer, as seen by the functions below *)
Inductive pobj (T : Type) :=
| Part (p : pset T)
| Other.
Arguments Other {T}.

(* particles.h 2230-2292: find_min_max_attributes_on_managed_buffer, the loop;
   [found]: num_particle_blocks_found *)
Fixpoint find_min_max_buffer_loop T (objs : list (pobj T)) (m : minmax) (success found : Z)
  : option (minmax * Z * Z) :=
  match objs with
  | [] => Some (m, success, found)
  | Other :: rest => find_min_max_buffer_loop rest m success found
  | Part p :: rest =>
    r <- find_min_max p m ;;
    let '(m, success) := r in
    if success =? 0 then find_min_max_buffer_loop rest m success (found + 1)
    else Some (m, success, found)
  end.

Definition find_min_max_buffer T (objs : list (pobj T)) (m : minmax) : option (minmax * Z) :=
  r <- find_min_max_buffer_loop objs m 0 0 ;;
  let '(m, success, found) := r in
  if (success =? 0) && (found =? 0) then Some (m, -1) else Some (m, success).

(* particles.c 485-502: Particles_buffer_get_min_max_attributes *)
Definition get_min_max_buffer T (objs : list (pobj T)) : option (minmax * Z) :=
  find_min_max_buffer objs minmax_init.

(* particles.h 3655-3674 with managed_buffer_minimal.h 770-782 and particles.h
   2652-2668: the particle set at an index.  None: undefined (the index equal to the
   number of objects passes the check "<=" and reads behind the object list, finding C08);
   Some None: NULL.  The object must be larger than its handle, i.e. not empty. *)
Definition get_const_particles T (objs : list (pobj T)) (i : Z) : option (option (pset T)) :=
  if i =? Z.of_nat (length objs) then None
  else match aget objs i with
       | Some (Part p) => if 0 <? ps_num p then Some (Some p) else Some None
       | _ => Some None
       end.

(* particles.h 2296-2356: find_min_max_attributes_of_particles_set_on_managed_buffer *)
Fixpoint find_min_max_sets_loop T (objs : list (pobj T)) (idx : list Z) (m : minmax) (success : Z)
  : option (minmax * Z) :=
  match idx with
  | [] => Some (m, success)
  | i :: rest =>
    q <- get_const_particles objs i ;;
    match q with
    | Some p =>
      r <- find_min_max p m ;;
      let '(m, success) := r in
      if success =? 0 then find_min_max_sets_loop objs rest m success else Some (m, success)
    | None => Some (m, -1)
    end
  end.

Definition find_min_max_sets T (objs : list (pobj T)) (idx : list Z) (m : minmax)
  : option (minmax * Z) :=
  if (0 <? Z.of_nat (length idx)) && (0 <? Z.of_nat (length objs)) then
    find_min_max_sets_loop objs idx m 0
  else Some (m, -1).

(* particles.c 463-483: Particles_buffer_get_min_max_attributes_of_particles_set *)
Definition get_min_max_sets T (objs : list (pobj T)) (idx : list Z) : option (minmax * Z) :=
  find_min_max_sets objs idx minmax_init.

(* min and max of one array: loops of particles.h 5965-5975, 6168-6178, 6406-6416 *)
Definition range_step (a : list Z) (ii : Z) (s : Z * Z) : option (Z * Z) :=
  temp <- aget a ii ;; Some (keep_min (fst s) temp, keep_max (snd s) temp).

(* particles.h 6155-6201: get_min_max_at_element_id_value; (min, max, status), the
   results are not written for an empty set *)
Definition get_min_max_at_element T (p : pset T) : option (option (Z * Z) * Z) :=
  if 0 <? ps_num p then
    v <- aget (ps_at_element_id p) 0 ;;
    r <- for_from (range_step (ps_at_element_id p)) 1 (Z.to_nat (ps_num p - 1)) (v, v) ;;
    Some (Some r, SUCCESS)
  else Some (None, FAILURE).

(* particles.h 6389-6431: get_min_max_at_turn_value *)
Definition get_min_max_at_turn T (p : pset T) : option (option (Z * Z) * Z) :=
  if 0 <? ps_num p then
    v <- aget (ps_at_turn p) 0 ;;
    r <- for_from (range_step (ps_at_turn p)) 1 (Z.to_nat (ps_num p - 1)) (v, v) ;;
    Some (Some r, SUCCESS)
  else Some (None, FAILURE).

(* particles.h 5942-5988: get_min_max_particle_id_value_no_duplicate_check.  It starts
   from the *element id* of the first particle. *)
Definition get_min_max_id_no_check T (p : pset T) : option (option (Z * Z) * Z) :=
  if 0 <? ps_num p then
    v <- aget (ps_at_element_id p) 0 ;;
    r <- for_from (range_step (ps_particle_id p)) 1 (Z.to_nat (ps_num p - 1)) (v, v) ;;
    Some (Some r, SUCCESS)
  else Some (None, FAILURE).

(* ------------------------------------------------------------------ *)
(* particles.c 227-309: merge_and_check_for_duplicate.  The temporary arrays are
   filled before they are read and are represented by their unread parts
   lhs_temp_array + ii and rhs_temp_array + jj. *)

(* lines 289-303: while( ii < lhs_num ) array[ kk++ ] = temp[ ii++ ] *)
Fixpoint put_rest (l : list Z) (arr : list Z) (kk : Z) : option (list Z * Z) :=
  match l with
  | [] => Some (arr, kk)
  | x :: rest => a <- aput arr kk x ;; put_rest rest a (kk + 1)
  end.

(* lines 266-303 *)
Fixpoint merge_loop (l : list Z) : list Z -> list Z -> Z -> option (list Z * Z) :=
  fix merge_r (r : list Z) : list Z -> Z -> option (list Z * Z) := fun arr kk =>
  match l, r with
  | x :: l', y :: r' =>
    if x <? y then a <- aput arr kk x ;; merge_loop l' r a (kk + 1)
    else if y <? x then a <- aput arr kk y ;; merge_r r' a (kk + 1)
    else Some (arr, -1)
  | _, _ =>
    q <- put_rest l arr kk ;; let '(arr, kk) := q in
    q <- put_rest r arr kk ;; let '(arr, _) := q in Some (arr, 0)
  end.

(* array[ b .. e - 1 ] copied to a temporary array, lines 253-264 *)
Definition segment (arr : list Z) (b e : Z) : option (list Z) :=
  if (0 <=? b) && (b <=? e) && (e <=? Z.of_nat (length arr))
  then Some (firstn (Z.to_nat (e - b)) (skipn (Z.to_nat b) arr)) else None.

Definition merge_check (arr : list Z) (lhs_begin lhs_end rhs_end : Z) : option (list Z * Z) :=
  l <- segment arr lhs_begin lhs_end ;;
  r <- segment arr lhs_end rhs_end ;;
  merge_loop l r arr lhs_begin.

Definition of_option {A} (m : option A) : res A :=
  match m with Some a => Ok a | None => Undef end.

(* particles.c 311-351: recursive_merge_sort; fuel bounds the recursion depth *)
Fixpoint rec_merge_sort (fuel : nat) (arr : list Z) (left right : Z) : res (list Z * Z) :=
  match fuel with
  | O => NoFuel
  | S fuel =>
    if left <? right then
      let mid := left + (right - left) / 2 in
      bind (rec_merge_sort fuel arr left mid) (fun q => let '(arr, s1) := q in
        if s1 =? 0 then
          bind (rec_merge_sort fuel arr (mid + 1) right) (fun q => let '(arr, s2) := q in
            if s2 =? 0 then of_option (merge_check arr left (mid + 1) (right + 1))
            else Ok (arr, -1))
        else Ok (arr, -1))
    else if left =? right then Ok (arr, 0)
    else Ok (arr, -1)
  end.

(* particles.c 399-412: the check done in debug builds *)
Fixpoint strictly_increasing (l : list Z) : bool :=
  match l with
  | x :: ((y :: _) as r) => (x <? y) && strictly_increasing r
  | _ => true
  end.

(* particles.c 353-441: Particles_get_min_max_particle_id; [debug]: NDEBUG undefined.
   (min, max) not written on failure. *)
Definition get_min_max_id T (debug : bool) (p : pset T) : res (option (Z * Z) * Z) :=
  if 0 <? ps_num p then
    bind (of_option (segment (ps_particle_id p) 0 (ps_num p))) (fun ids =>
    bind (rec_merge_sort (S (Z.to_nat (ps_num p))) (map iabs ids) 0 (ps_num p - 1)) (fun q =>
      let '(arr, success) := q in
      let success := if debug && (success =? 0) && negb (strictly_increasing arr)
                     then -1 else success in
      if success =? 0 then
        of_option (mx <- aget arr (ps_num p - 1) ;; mn <- aget arr 0 ;; Some (Some (mn, mx), 0))
      else Ok (None, success)))
  else Ok (None, FAILURE).

(* ------------------------------------------------------------------ *)
(* particles.h 2682-2707: BufferIndex_get_total_num_of_particles_in_range *)
Fixpoint total_num T (objs : list (pobj T)) : Z :=
  match objs with
  | [] => 0
  | Part p :: rest => ps_num p + total_num rest
  | Other :: rest => total_num rest
  end.

(* particles.h 2710-2740: BufferIndex_get_total_num_of_particle_blocks_in_range *)
Fixpoint num_blocks T (objs : list (pobj T)) : Z :=
  match objs with
  | [] => 0
  | Part _ :: rest => 1 + num_blocks rest
  | Other :: rest => num_blocks rest
  end.

(* particles.h 2743-2823: BufferIndex_get_index_object_by_global_index_from_range.
   Result: position of the found object in the range (the length of the range stands
   for [end]) and *ptr_result_index_offset. [pos]: position of the iterator *)
Fixpoint by_global_index T (global_index : Z) (objs : list (pobj T)) (pos block_begin block_end : Z)
  : Z * Z :=
  match objs with
  | [] => (pos, block_end)
  | Other :: rest => by_global_index global_index rest (pos + 1) block_begin block_end
  | Part p :: rest =>
    let block_end := block_end + ps_num p in
    if (block_begin <=? global_index) && (global_index <? block_end) then (pos, block_begin)
    else by_global_index global_index rest (pos + 1) block_end block_end
  end.

Definition global_lookup T (global_index begin_offset : Z) (objs : list (pobj T)) : Z * Z :=
  by_global_index global_index objs 0 begin_offset begin_offset.
