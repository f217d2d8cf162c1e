(* Particle sets (structures of arrays) and the operations copying particles between
   them: sixtracklib/common/particles.h.  Written by tools/gen_pset.py.

   Simplifications: an attribute pointer together with the memory it points to is a
   list; the 21 arrays of a set do not overlap each other nor those of another set
   (arrays inside one set never do: see init_from_flat_arrays and C06).
   int64 indices are unbounded integers Z.  SIXTRL_ASSERT is disabled (release build).
   None = an access outside an attribute array, i.e. undefined behaviour.
   NULL particle sets and destination == source are excluded by the types
   (particles.h rejects both). *)
From Coq Require Import ZArith List Bool.
From Verif Require Import Particle Elements.
Import ListNotations.
Local Open Scope Z_scope.
Set Implicit Arguments.

(* a[ i ] of an array a *)
Definition aget {A : Type} (a : list A) (i : Z) : option A :=
  if 0 <=? i then nth_error a (Z.to_nat i) else None.

(* a[ i ] = v *)
Definition aput {A : Type} (a : list A) (i : Z) (v : A) : option (list A) :=
  if (0 <=? i) && (i <? Z.of_nat (length a)) then Some (upd a (Z.to_nat i) v) else None.

(* SIXTRACKLIB_COPY_VALUES, sixtracklib/common/definitions.h 560-587 (host):
   memcpy of n values from src + s to dst + d *)
Definition acopy {A : Type} (dst : list A) (d : Z) (src : list A) (s n : Z) : option (list A) :=
  if (0 <=? d) && (0 <=? s) && (0 <=? n) && (d + n <=? Z.of_nat (length dst)) &&
     (s + n <=? Z.of_nat (length src)) then
    Some (firstn (Z.to_nat d) dst ++ firstn (Z.to_nat n) (skipn (Z.to_nat s) src) ++
          skipn (Z.to_nat (d + n)) dst)
  else None.

(* SIXTRACKLIB_SET_VALUES, definitions.h 658-678: n values from a + d on; on the host a
   memset, used with the value 0 only (all-zero bytes are 0.0 and 0) *)
Definition afill {A : Type} (a : list A) (d n : Z) (v : A) : option (list A) :=
  if (0 <=? d) && (0 <=? n) && (d + n <=? Z.of_nat (length a)) then
    Some (firstn (Z.to_nat d) a ++ repeat v (Z.to_nat n) ++ skipn (Z.to_nat (d + n)) a)
  else None.

Definition obind {A B : Type} (m : option A) (f : A -> option B) : option B :=
  match m with Some a => f a | None => None end.

(* particles.h 60-90: struct Particles; also ParticlesGenericAddr, whose members are
   the addresses of the same arrays in the same order (store_addresses 1468-1501,
   init_from_generic_addr 1503-1537 are then identities) *)
Record pset (T : Type) := mkPset {
  ps_num : Z;
  ps_q0 : list T;
  ps_mass0 : list T;
  ps_beta0 : list T;
  ps_gamma0 : list T;
  ps_p0c : list T;
  ps_s : list T;
  ps_x : list T;
  ps_y : list T;
  ps_px : list T;
  ps_py : list T;
  ps_zeta : list T;
  ps_psigma : list T;
  ps_delta : list T;
  ps_rpp : list T;
  ps_rvv : list T;
  ps_chi : list T;
  ps_charge_ratio : list T;
  ps_particle_id : list Z;
  ps_at_element_id : list Z;
  ps_at_turn : list Z;
  ps_state : list Z }.

(* pointer assignments / stores through them *)
Definition with_q0 T (l : list T) (r : pset T) : pset T :=
  mkPset (ps_num r) l (ps_mass0 r) (ps_beta0 r) (ps_gamma0 r) (ps_p0c r) (ps_s r) (ps_x r) (ps_y r) (ps_px r) (ps_py r) (ps_zeta r) (ps_psigma r) (ps_delta r) (ps_rpp r) (ps_rvv r) (ps_chi r) (ps_charge_ratio r) (ps_particle_id r) (ps_at_element_id r) (ps_at_turn r) (ps_state r).
Definition with_mass0 T (l : list T) (r : pset T) : pset T :=
  mkPset (ps_num r) (ps_q0 r) l (ps_beta0 r) (ps_gamma0 r) (ps_p0c r) (ps_s r) (ps_x r) (ps_y r) (ps_px r) (ps_py r) (ps_zeta r) (ps_psigma r) (ps_delta r) (ps_rpp r) (ps_rvv r) (ps_chi r) (ps_charge_ratio r) (ps_particle_id r) (ps_at_element_id r) (ps_at_turn r) (ps_state r).
Definition with_beta0 T (l : list T) (r : pset T) : pset T :=
  mkPset (ps_num r) (ps_q0 r) (ps_mass0 r) l (ps_gamma0 r) (ps_p0c r) (ps_s r) (ps_x r) (ps_y r) (ps_px r) (ps_py r) (ps_zeta r) (ps_psigma r) (ps_delta r) (ps_rpp r) (ps_rvv r) (ps_chi r) (ps_charge_ratio r) (ps_particle_id r) (ps_at_element_id r) (ps_at_turn r) (ps_state r).
Definition with_gamma0 T (l : list T) (r : pset T) : pset T :=
  mkPset (ps_num r) (ps_q0 r) (ps_mass0 r) (ps_beta0 r) l (ps_p0c r) (ps_s r) (ps_x r) (ps_y r) (ps_px r) (ps_py r) (ps_zeta r) (ps_psigma r) (ps_delta r) (ps_rpp r) (ps_rvv r) (ps_chi r) (ps_charge_ratio r) (ps_particle_id r) (ps_at_element_id r) (ps_at_turn r) (ps_state r).
Definition with_p0c T (l : list T) (r : pset T) : pset T :=
  mkPset (ps_num r) (ps_q0 r) (ps_mass0 r) (ps_beta0 r) (ps_gamma0 r) l (ps_s r) (ps_x r) (ps_y r) (ps_px r) (ps_py r) (ps_zeta r) (ps_psigma r) (ps_delta r) (ps_rpp r) (ps_rvv r) (ps_chi r) (ps_charge_ratio r) (ps_particle_id r) (ps_at_element_id r) (ps_at_turn r) (ps_state r).
Definition with_s T (l : list T) (r : pset T) : pset T :=
  mkPset (ps_num r) (ps_q0 r) (ps_mass0 r) (ps_beta0 r) (ps_gamma0 r) (ps_p0c r) l (ps_x r) (ps_y r) (ps_px r) (ps_py r) (ps_zeta r) (ps_psigma r) (ps_delta r) (ps_rpp r) (ps_rvv r) (ps_chi r) (ps_charge_ratio r) (ps_particle_id r) (ps_at_element_id r) (ps_at_turn r) (ps_state r).
Definition with_x T (l : list T) (r : pset T) : pset T :=
  mkPset (ps_num r) (ps_q0 r) (ps_mass0 r) (ps_beta0 r) (ps_gamma0 r) (ps_p0c r) (ps_s r) l (ps_y r) (ps_px r) (ps_py r) (ps_zeta r) (ps_psigma r) (ps_delta r) (ps_rpp r) (ps_rvv r) (ps_chi r) (ps_charge_ratio r) (ps_particle_id r) (ps_at_element_id r) (ps_at_turn r) (ps_state r).
Definition with_y T (l : list T) (r : pset T) : pset T :=
  mkPset (ps_num r) (ps_q0 r) (ps_mass0 r) (ps_beta0 r) (ps_gamma0 r) (ps_p0c r) (ps_s r) (ps_x r) l (ps_px r) (ps_py r) (ps_zeta r) (ps_psigma r) (ps_delta r) (ps_rpp r) (ps_rvv r) (ps_chi r) (ps_charge_ratio r) (ps_particle_id r) (ps_at_element_id r) (ps_at_turn r) (ps_state r).
Definition with_px T (l : list T) (r : pset T) : pset T :=
  mkPset (ps_num r) (ps_q0 r) (ps_mass0 r) (ps_beta0 r) (ps_gamma0 r) (ps_p0c r) (ps_s r) (ps_x r) (ps_y r) l (ps_py r) (ps_zeta r) (ps_psigma r) (ps_delta r) (ps_rpp r) (ps_rvv r) (ps_chi r) (ps_charge_ratio r) (ps_particle_id r) (ps_at_element_id r) (ps_at_turn r) (ps_state r).
Definition with_py T (l : list T) (r : pset T) : pset T :=
  mkPset (ps_num r) (ps_q0 r) (ps_mass0 r) (ps_beta0 r) (ps_gamma0 r) (ps_p0c r) (ps_s r) (ps_x r) (ps_y r) (ps_px r) l (ps_zeta r) (ps_psigma r) (ps_delta r) (ps_rpp r) (ps_rvv r) (ps_chi r) (ps_charge_ratio r) (ps_particle_id r) (ps_at_element_id r) (ps_at_turn r) (ps_state r).
Definition with_zeta T (l : list T) (r : pset T) : pset T :=
  mkPset (ps_num r) (ps_q0 r) (ps_mass0 r) (ps_beta0 r) (ps_gamma0 r) (ps_p0c r) (ps_s r) (ps_x r) (ps_y r) (ps_px r) (ps_py r) l (ps_psigma r) (ps_delta r) (ps_rpp r) (ps_rvv r) (ps_chi r) (ps_charge_ratio r) (ps_particle_id r) (ps_at_element_id r) (ps_at_turn r) (ps_state r).
Definition with_psigma T (l : list T) (r : pset T) : pset T :=
  mkPset (ps_num r) (ps_q0 r) (ps_mass0 r) (ps_beta0 r) (ps_gamma0 r) (ps_p0c r) (ps_s r) (ps_x r) (ps_y r) (ps_px r) (ps_py r) (ps_zeta r) l (ps_delta r) (ps_rpp r) (ps_rvv r) (ps_chi r) (ps_charge_ratio r) (ps_particle_id r) (ps_at_element_id r) (ps_at_turn r) (ps_state r).
Definition with_delta T (l : list T) (r : pset T) : pset T :=
  mkPset (ps_num r) (ps_q0 r) (ps_mass0 r) (ps_beta0 r) (ps_gamma0 r) (ps_p0c r) (ps_s r) (ps_x r) (ps_y r) (ps_px r) (ps_py r) (ps_zeta r) (ps_psigma r) l (ps_rpp r) (ps_rvv r) (ps_chi r) (ps_charge_ratio r) (ps_particle_id r) (ps_at_element_id r) (ps_at_turn r) (ps_state r).
Definition with_rpp T (l : list T) (r : pset T) : pset T :=
  mkPset (ps_num r) (ps_q0 r) (ps_mass0 r) (ps_beta0 r) (ps_gamma0 r) (ps_p0c r) (ps_s r) (ps_x r) (ps_y r) (ps_px r) (ps_py r) (ps_zeta r) (ps_psigma r) (ps_delta r) l (ps_rvv r) (ps_chi r) (ps_charge_ratio r) (ps_particle_id r) (ps_at_element_id r) (ps_at_turn r) (ps_state r).
Definition with_rvv T (l : list T) (r : pset T) : pset T :=
  mkPset (ps_num r) (ps_q0 r) (ps_mass0 r) (ps_beta0 r) (ps_gamma0 r) (ps_p0c r) (ps_s r) (ps_x r) (ps_y r) (ps_px r) (ps_py r) (ps_zeta r) (ps_psigma r) (ps_delta r) (ps_rpp r) l (ps_chi r) (ps_charge_ratio r) (ps_particle_id r) (ps_at_element_id r) (ps_at_turn r) (ps_state r).
Definition with_chi T (l : list T) (r : pset T) : pset T :=
  mkPset (ps_num r) (ps_q0 r) (ps_mass0 r) (ps_beta0 r) (ps_gamma0 r) (ps_p0c r) (ps_s r) (ps_x r) (ps_y r) (ps_px r) (ps_py r) (ps_zeta r) (ps_psigma r) (ps_delta r) (ps_rpp r) (ps_rvv r) l (ps_charge_ratio r) (ps_particle_id r) (ps_at_element_id r) (ps_at_turn r) (ps_state r).
Definition with_charge_ratio T (l : list T) (r : pset T) : pset T :=
  mkPset (ps_num r) (ps_q0 r) (ps_mass0 r) (ps_beta0 r) (ps_gamma0 r) (ps_p0c r) (ps_s r) (ps_x r) (ps_y r) (ps_px r) (ps_py r) (ps_zeta r) (ps_psigma r) (ps_delta r) (ps_rpp r) (ps_rvv r) (ps_chi r) l (ps_particle_id r) (ps_at_element_id r) (ps_at_turn r) (ps_state r).
Definition with_particle_id T (l : list Z) (r : pset T) : pset T :=
  mkPset (ps_num r) (ps_q0 r) (ps_mass0 r) (ps_beta0 r) (ps_gamma0 r) (ps_p0c r) (ps_s r) (ps_x r) (ps_y r) (ps_px r) (ps_py r) (ps_zeta r) (ps_psigma r) (ps_delta r) (ps_rpp r) (ps_rvv r) (ps_chi r) (ps_charge_ratio r) l (ps_at_element_id r) (ps_at_turn r) (ps_state r).
Definition with_at_element_id T (l : list Z) (r : pset T) : pset T :=
  mkPset (ps_num r) (ps_q0 r) (ps_mass0 r) (ps_beta0 r) (ps_gamma0 r) (ps_p0c r) (ps_s r) (ps_x r) (ps_y r) (ps_px r) (ps_py r) (ps_zeta r) (ps_psigma r) (ps_delta r) (ps_rpp r) (ps_rvv r) (ps_chi r) (ps_charge_ratio r) (ps_particle_id r) l (ps_at_turn r) (ps_state r).
Definition with_at_turn T (l : list Z) (r : pset T) : pset T :=
  mkPset (ps_num r) (ps_q0 r) (ps_mass0 r) (ps_beta0 r) (ps_gamma0 r) (ps_p0c r) (ps_s r) (ps_x r) (ps_y r) (ps_px r) (ps_py r) (ps_zeta r) (ps_psigma r) (ps_delta r) (ps_rpp r) (ps_rvv r) (ps_chi r) (ps_charge_ratio r) (ps_particle_id r) (ps_at_element_id r) l (ps_state r).
Definition with_state T (l : list Z) (r : pset T) : pset T :=
  mkPset (ps_num r) (ps_q0 r) (ps_mass0 r) (ps_beta0 r) (ps_gamma0 r) (ps_p0c r) (ps_s r) (ps_x r) (ps_y r) (ps_px r) (ps_py r) (ps_zeta r) (ps_psigma r) (ps_delta r) (ps_rpp r) (ps_rvv r) (ps_chi r) (ps_charge_ratio r) (ps_particle_id r) (ps_at_element_id r) (ps_at_turn r) l.

(* dest->a[ di ] = src->a[ si ], particles.h, e.g. Particles_set_q0_value /
   Particles_get_q0_value *)
Definition copy_value {T A : Type} (get : pset T -> list A) (put : list A -> pset T -> pset T)
    (di : Z) (src : pset T) (si : Z) (dest : pset T) : option (pset T) :=
  obind (aget (get src) si) (fun v => obind (aput (get dest) di v) (fun l =>
    Some (put l dest))).

(* p->a[ i ] = v *)
Definition set_value {T A : Type} (get : pset T -> list A) (put : list A -> pset T -> pset T)
    (i : Z) (v : A) (p : pset T) : option (pset T) :=
  obind (aput (get p) i v) (fun l => Some (put l p)).

(* SIXTRACKLIB_COPY_VALUES for one attribute *)
Definition copy_values {T A : Type} (get : pset T -> list A) (put : list A -> pset T -> pset T)
    (d : Z) (src : pset T) (s n : Z) (dest : pset T) : option (pset T) :=
  obind (acopy (get dest) d (get src) s n) (fun l => Some (put l dest)).

(* SIXTRACKLIB_SET_VALUES for one attribute *)
Definition fill_values {T A : Type} (get : pset T -> list A) (put : list A -> pset T -> pset T)
    (d n : Z) (v : A) (p : pset T) : option (pset T) :=
  obind (afill (get p) d n v) (fun l => Some (put l p)).

Notation "p <- m ;; k" := (obind m (fun p => k)) (at level 61, m at next level, right associativity).

Definition SUCCESS : Z := 0.
Definition FAILURE : Z := -1.

(* The 21 assignments of copy_single, copy_from_generic_addr_data and
   copy_to_generic_addr_data, which are the same in the same order
   (particles.h 2857-2918, 1624-1686, 1735-1797). *)
Definition copy_all_values T (di : Z) (src : pset T) (si : Z) (d : pset T) : option (pset T) :=
  d <- copy_value (@ps_q0 T) (@with_q0 T) di src si d ;;
  d <- copy_value (@ps_mass0 T) (@with_mass0 T) di src si d ;;
  d <- copy_value (@ps_beta0 T) (@with_beta0 T) di src si d ;;
  d <- copy_value (@ps_gamma0 T) (@with_gamma0 T) di src si d ;;
  d <- copy_value (@ps_p0c T) (@with_p0c T) di src si d ;;
  d <- copy_value (@ps_s T) (@with_s T) di src si d ;;
  d <- copy_value (@ps_x T) (@with_x T) di src si d ;;
  d <- copy_value (@ps_y T) (@with_y T) di src si d ;;
  d <- copy_value (@ps_px T) (@with_px T) di src si d ;;
  d <- copy_value (@ps_py T) (@with_py T) di src si d ;;
  d <- copy_value (@ps_zeta T) (@with_zeta T) di src si d ;;
  d <- copy_value (@ps_psigma T) (@with_psigma T) di src si d ;;
  d <- copy_value (@ps_delta T) (@with_delta T) di src si d ;;
  d <- copy_value (@ps_rpp T) (@with_rpp T) di src si d ;;
  d <- copy_value (@ps_rvv T) (@with_rvv T) di src si d ;;
  d <- copy_value (@ps_chi T) (@with_chi T) di src si d ;;
  d <- copy_value (@ps_charge_ratio T) (@with_charge_ratio T) di src si d ;;
  d <- copy_value (@ps_particle_id T) (@with_particle_id T) di src si d ;;
  d <- copy_value (@ps_at_element_id T) (@with_at_element_id T) di src si d ;;
  d <- copy_value (@ps_at_turn T) (@with_at_turn T) di src si d ;;
  d <- copy_value (@ps_state T) (@with_state T) di src si d ;;
  Some d.

(* particles.h 2827-2925: copy_single; (destination, status) *)
Definition copy_single T (dest : pset T) (destination_idx : Z) (source : pset T)
    (source_idx : Z) : option (pset T * Z) :=
  let dest_num := ps_num dest in
  let source_num := ps_num source in
  let di := if ((destination_idx <? 0) || (dest_num <? destination_idx)) then
              (if source_idx <? dest_num then source_idx else destination_idx)
            else destination_idx in
  if (0 <=? source_idx) && (source_idx <? source_num) && (0 <=? di) && (di <? dest_num) then
    d <- copy_all_values di source source_idx dest ;; Some (d, SUCCESS)
  else Some (dest, FAILURE).

(* particles.h 1584-1692: copy_from_generic_addr_data *)
Definition copy_from_generic T (dest : pset T) (dest_idx : Z) (src : pset T) (src_idx : Z) :
    option (pset T * Z) :=
  if (src_idx <? ps_num src) && (dest_idx <? ps_num dest) then
    d <- copy_all_values dest_idx src src_idx dest ;; Some (d, SUCCESS)
  else Some (dest, FAILURE).

(* particles.h 1695-1803: copy_to_generic_addr_data *)
Definition copy_to_generic T (dest : pset T) (dest_idx : Z) (src : pset T) (src_idx : Z) :
    option (pset T * Z) :=
  if (src_idx <? ps_num src) && (dest_idx <? ps_num dest) then
    d <- copy_all_values dest_idx src src_idx dest ;; Some (d, SUCCESS)
  else Some (dest, FAILURE).

(* particles.h 3013-3093: the 21 COPY_VALUES of copy_range, in that order *)
Definition copy_all_ranges T (ds : Z) (src : pset T) (ss n : Z) (d : pset T) : option (pset T) :=
  d <- copy_values (@ps_q0 T) (@with_q0 T) ds src ss n d ;;
  d <- copy_values (@ps_beta0 T) (@with_beta0 T) ds src ss n d ;;
  d <- copy_values (@ps_mass0 T) (@with_mass0 T) ds src ss n d ;;
  d <- copy_values (@ps_gamma0 T) (@with_gamma0 T) ds src ss n d ;;
  d <- copy_values (@ps_p0c T) (@with_p0c T) ds src ss n d ;;
  d <- copy_values (@ps_s T) (@with_s T) ds src ss n d ;;
  d <- copy_values (@ps_x T) (@with_x T) ds src ss n d ;;
  d <- copy_values (@ps_y T) (@with_y T) ds src ss n d ;;
  d <- copy_values (@ps_px T) (@with_px T) ds src ss n d ;;
  d <- copy_values (@ps_py T) (@with_py T) ds src ss n d ;;
  d <- copy_values (@ps_zeta T) (@with_zeta T) ds src ss n d ;;
  d <- copy_values (@ps_psigma T) (@with_psigma T) ds src ss n d ;;
  d <- copy_values (@ps_delta T) (@with_delta T) ds src ss n d ;;
  d <- copy_values (@ps_rpp T) (@with_rpp T) ds src ss n d ;;
  d <- copy_values (@ps_rvv T) (@with_rvv T) ds src ss n d ;;
  d <- copy_values (@ps_chi T) (@with_chi T) ds src ss n d ;;
  d <- copy_values (@ps_charge_ratio T) (@with_charge_ratio T) ds src ss n d ;;
  d <- copy_values (@ps_particle_id T) (@with_particle_id T) ds src ss n d ;;
  d <- copy_values (@ps_at_element_id T) (@with_at_element_id T) ds src ss n d ;;
  d <- copy_values (@ps_at_turn T) (@with_at_turn T) ds src ss n d ;;
  d <- copy_values (@ps_state T) (@with_state T) ds src ss n d ;;
  Some d.

(* particles.h 2928-3097: copy_range *)
Definition copy_range T (dest source : pset T) (source_start source_end dest_start : Z) :
    option (pset T * Z) :=
  let num_to_copy := if source_start <=? source_end then source_end - source_start else 0 in
  let source_num := ps_num source in
  let dest_num := ps_num dest in
  let ds := if (dest_start <? 0) || (dest_num <=? dest_start) then
              (if source_end <? dest_num then source_start else dest_start)
            else dest_start in
  if (0 <=? source_start) && (source_start <=? source_end) && (source_end <=? source_num) &&
     (0 <=? ds) && (ds + num_to_copy <=? dest_num) then
    d <- copy_all_ranges ds source source_start num_to_copy dest ;; Some (d, SUCCESS)
  else Some (dest, FAILURE).

(* particles.h 3100-3118: copy *)
Definition copy_set T (dest source : pset T) : option (pset T * Z) :=
  let num := ps_num source in
  if (0 <? num) && (num =? ps_num dest) then copy_range dest source 0 num 0
  else Some (dest, FAILURE).

(* particles.h 3422-3463: clear_single *)
Definition clear_single T (zero : T) (p : pset T) (i : Z) : option (pset T) :=
  if (0 <=? i) && (i <? ps_num p) then
  let d := p in
  d <- set_value (@ps_q0 T) (@with_q0 T) i zero d ;;
  d <- set_value (@ps_mass0 T) (@with_mass0 T) i zero d ;;
  d <- set_value (@ps_beta0 T) (@with_beta0 T) i zero d ;;
  d <- set_value (@ps_gamma0 T) (@with_gamma0 T) i zero d ;;
  d <- set_value (@ps_p0c T) (@with_p0c T) i zero d ;;
  d <- set_value (@ps_s T) (@with_s T) i zero d ;;
  d <- set_value (@ps_x T) (@with_x T) i zero d ;;
  d <- set_value (@ps_y T) (@with_y T) i zero d ;;
  d <- set_value (@ps_px T) (@with_px T) i zero d ;;
  d <- set_value (@ps_py T) (@with_py T) i zero d ;;
  d <- set_value (@ps_zeta T) (@with_zeta T) i zero d ;;
  d <- set_value (@ps_psigma T) (@with_psigma T) i zero d ;;
  d <- set_value (@ps_delta T) (@with_delta T) i zero d ;;
  d <- set_value (@ps_rpp T) (@with_rpp T) i zero d ;;
  d <- set_value (@ps_rvv T) (@with_rvv T) i zero d ;;
  d <- set_value (@ps_chi T) (@with_chi T) i zero d ;;
  d <- set_value (@ps_charge_ratio T) (@with_charge_ratio T) i zero d ;;
  d <- set_value (@ps_particle_id T) (@with_particle_id T) i 0 d ;;
  d <- set_value (@ps_at_element_id T) (@with_at_element_id T) i 0 d ;;
  d <- set_value (@ps_at_turn T) (@with_at_turn T) i 0 d ;;
  d <- set_value (@ps_state T) (@with_state T) i 0 d ;;
  Some d
  else Some p.

(* particles.h 3466-3579: clear_range *)
Definition clear_range T (zero : T) (p : pset T) (start_index end_index : Z) : option (pset T) :=
  if (0 <=? start_index) && (start_index <=? end_index) && (end_index <=? ps_num p) then
  let len := end_index - start_index in
  let d := p in
  d <- fill_values (@ps_q0 T) (@with_q0 T) start_index len zero d ;;
  d <- fill_values (@ps_mass0 T) (@with_mass0 T) start_index len zero d ;;
  d <- fill_values (@ps_beta0 T) (@with_beta0 T) start_index len zero d ;;
  d <- fill_values (@ps_gamma0 T) (@with_gamma0 T) start_index len zero d ;;
  d <- fill_values (@ps_p0c T) (@with_p0c T) start_index len zero d ;;
  d <- fill_values (@ps_s T) (@with_s T) start_index len zero d ;;
  d <- fill_values (@ps_x T) (@with_x T) start_index len zero d ;;
  d <- fill_values (@ps_y T) (@with_y T) start_index len zero d ;;
  d <- fill_values (@ps_px T) (@with_px T) start_index len zero d ;;
  d <- fill_values (@ps_py T) (@with_py T) start_index len zero d ;;
  d <- fill_values (@ps_zeta T) (@with_zeta T) start_index len zero d ;;
  d <- fill_values (@ps_psigma T) (@with_psigma T) start_index len zero d ;;
  d <- fill_values (@ps_delta T) (@with_delta T) start_index len zero d ;;
  d <- fill_values (@ps_rpp T) (@with_rpp T) start_index len zero d ;;
  d <- fill_values (@ps_rvv T) (@with_rvv T) start_index len zero d ;;
  d <- fill_values (@ps_chi T) (@with_chi T) start_index len zero d ;;
  d <- fill_values (@ps_charge_ratio T) (@with_charge_ratio T) start_index len zero d ;;
  d <- fill_values (@ps_particle_id T) (@with_particle_id T) start_index len 0 d ;;
  d <- fill_values (@ps_at_element_id T) (@with_at_element_id T) start_index len 0 d ;;
  d <- fill_values (@ps_at_turn T) (@with_at_turn T) start_index len 0 d ;;
  d <- fill_values (@ps_state T) (@with_state T) start_index len 0 d ;;
  Some d
  else Some p.

(* particles.h 3582-3589: clear *)
Definition clear T (zero : T) (p : pset T) : option (pset T) :=
  clear_range zero p 0 (ps_num p).

(* particles.h 2592-2618: loop body of preset_values *)
Definition preset_value T (zero : T) (i : Z) (d : pset T) : option (pset T) :=
  d <- set_value (@ps_q0 T) (@with_q0 T) i zero d ;;
  d <- set_value (@ps_beta0 T) (@with_beta0 T) i zero d ;;
  d <- set_value (@ps_mass0 T) (@with_mass0 T) i zero d ;;
  d <- set_value (@ps_gamma0 T) (@with_gamma0 T) i zero d ;;
  d <- set_value (@ps_p0c T) (@with_p0c T) i zero d ;;
  d <- set_value (@ps_s T) (@with_s T) i zero d ;;
  d <- set_value (@ps_x T) (@with_x T) i zero d ;;
  d <- set_value (@ps_y T) (@with_y T) i zero d ;;
  d <- set_value (@ps_px T) (@with_px T) i zero d ;;
  d <- set_value (@ps_py T) (@with_py T) i zero d ;;
  d <- set_value (@ps_zeta T) (@with_zeta T) i zero d ;;
  d <- set_value (@ps_psigma T) (@with_psigma T) i zero d ;;
  d <- set_value (@ps_delta T) (@with_delta T) i zero d ;;
  d <- set_value (@ps_rpp T) (@with_rpp T) i zero d ;;
  d <- set_value (@ps_rvv T) (@with_rvv T) i zero d ;;
  d <- set_value (@ps_chi T) (@with_chi T) i zero d ;;
  d <- set_value (@ps_charge_ratio T) (@with_charge_ratio T) i zero d ;;
  d <- set_value (@ps_particle_id T) (@with_particle_id T) i (-1) d ;;
  d <- set_value (@ps_at_element_id T) (@with_at_element_id T) i (-1) d ;;
  d <- set_value (@ps_at_turn T) (@with_at_turn T) i (-1) d ;;
  d <- set_value (@ps_state T) (@with_state T) i 1 d ;;
  Some d.

(* for( ; ii < num ; ++ii ) body *)
Fixpoint for_from {S : Type} (body : Z -> S -> option S) (ii : Z) (count : nat) (s : S) : option S :=
  match count with
  | O => Some s
  | Datatypes.S n => obind (body ii s) (for_from body (ii + 1) n)
  end.

(* particles.h 2538-2624: preset_values *)
Definition preset_values T (zero : T) (p : pset T) : option (pset T) :=
  let num := if 0 <=? ps_num p then ps_num p else 0 in
  for_from (@preset_value T zero) 0 (Z.to_nat num) p.

(* particles.h 1539-1582: init_from_flat_arrays; the k-th attribute array of length
   num starts at offset k * num.  None: num <= 0, the set is not initialised. *)
Definition slice {A : Type} (a : list A) (k num : Z) : list A :=
  firstn (Z.to_nat num) (skipn (Z.to_nat (k * num)) a).

Definition init_from_flat_arrays T (num : Z) (real_array : list T) (index_array : list Z) :
    option (pset T) :=
  if 0 <? num then Some (mkPset num (slice real_array 0 num) (slice real_array 1 num) (slice real_array 2 num) (slice real_array 3 num) (slice real_array 4 num) (slice real_array 5 num) (slice real_array 6 num) (slice real_array 7 num) (slice real_array 8 num) (slice real_array 9 num) (slice real_array 10 num) (slice real_array 11 num) (slice real_array 12 num) (slice real_array 13 num) (slice real_array 14 num) (slice real_array 15 num) (slice real_array 16 num) (slice index_array 0 num) (slice index_array 1 num) (slice index_array 2 num) (slice index_array 3 num)) else None.

(* ------------------------------------------------------------------ *)
(* Specification view: the particle at position i, all 21 attributes. *)
Definition pset_at T (p : pset T) (i : Z) : option (particle T) :=
  v_q0 <- aget (ps_q0 p) i ;;
  v_mass0 <- aget (ps_mass0 p) i ;;
  v_beta0 <- aget (ps_beta0 p) i ;;
  v_gamma0 <- aget (ps_gamma0 p) i ;;
  v_p0c <- aget (ps_p0c p) i ;;
  v_s <- aget (ps_s p) i ;;
  v_x <- aget (ps_x p) i ;;
  v_y <- aget (ps_y p) i ;;
  v_px <- aget (ps_px p) i ;;
  v_py <- aget (ps_py p) i ;;
  v_zeta <- aget (ps_zeta p) i ;;
  v_psigma <- aget (ps_psigma p) i ;;
  v_delta <- aget (ps_delta p) i ;;
  v_rpp <- aget (ps_rpp p) i ;;
  v_rvv <- aget (ps_rvv p) i ;;
  v_chi <- aget (ps_chi p) i ;;
  v_charge_ratio <- aget (ps_charge_ratio p) i ;;
  v_particle_id <- aget (ps_particle_id p) i ;;
  v_at_element_id <- aget (ps_at_element_id p) i ;;
  v_at_turn <- aget (ps_at_turn p) i ;;
  v_state <- aget (ps_state p) i ;;
  Some (mkParticle v_q0 v_mass0 v_beta0 v_gamma0 v_p0c v_s v_x v_y v_px v_py v_zeta v_psigma v_delta v_rpp v_rvv v_chi v_charge_ratio v_particle_id v_at_element_id v_at_turn v_state).

(* every attribute array has as many entries as the set has particles *)
Definition pset_wf T (p : pset T) : Prop :=
  0 <= ps_num p /\
  Z.of_nat (length (ps_q0 p)) = ps_num p /\
  Z.of_nat (length (ps_mass0 p)) = ps_num p /\
  Z.of_nat (length (ps_beta0 p)) = ps_num p /\
  Z.of_nat (length (ps_gamma0 p)) = ps_num p /\
  Z.of_nat (length (ps_p0c p)) = ps_num p /\
  Z.of_nat (length (ps_s p)) = ps_num p /\
  Z.of_nat (length (ps_x p)) = ps_num p /\
  Z.of_nat (length (ps_y p)) = ps_num p /\
  Z.of_nat (length (ps_px p)) = ps_num p /\
  Z.of_nat (length (ps_py p)) = ps_num p /\
  Z.of_nat (length (ps_zeta p)) = ps_num p /\
  Z.of_nat (length (ps_psigma p)) = ps_num p /\
  Z.of_nat (length (ps_delta p)) = ps_num p /\
  Z.of_nat (length (ps_rpp p)) = ps_num p /\
  Z.of_nat (length (ps_rvv p)) = ps_num p /\
  Z.of_nat (length (ps_chi p)) = ps_num p /\
  Z.of_nat (length (ps_charge_ratio p)) = ps_num p /\
  Z.of_nat (length (ps_particle_id p)) = ps_num p /\
  Z.of_nat (length (ps_at_element_id p)) = ps_num p /\
  Z.of_nat (length (ps_at_turn p)) = ps_num p /\
  Z.of_nat (length (ps_state p)) = ps_num p.

(* the set holding a list of particles *)
Definition pset_of T (l : list (particle T)) : pset T :=
  mkPset (Z.of_nat (length l)) (map (@p_q0 T) l) (map (@p_mass0 T) l) (map (@p_beta0 T) l) (map (@p_gamma0 T) l) (map (@p_p0c T) l) (map (@p_s T) l) (map (@p_x T) l) (map (@p_y T) l) (map (@p_px T) l) (map (@p_py T) l) (map (@p_zeta T) l) (map (@p_psigma T) l) (map (@p_delta T) l) (map (@p_rpp T) l) (map (@p_rvv T) l) (map (@p_chi T) l) (map (@p_charge_ratio T) l) (map (@p_particle_id T) l) (map (@p_at_element_id T) l) (map (@p_at_turn T) l) (map (@p_state T) l).
