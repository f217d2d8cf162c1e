#!/usr/bin/env python3
# Generates rocq/theories/ParticleSet.v: 21 nearly identical statements per function.
R="q0 mass0 beta0 gamma0 p0c s x y px py zeta psigma delta rpp rvv chi charge_ratio".split()
I="particle_id at_element_id at_turn state".split()
A=R+I
ty=lambda a: "T" if a in R else "Z"
RANGE="q0 beta0 mass0".split()+A[3:]
o=[]
w=o.append
w('''(* Particle sets (structures of arrays) and the operations copying particles between
   them: sixtracklib/common/particles.h.  Written by tools/gen_pset.py.

   Simplifications: an attribute pointer together with the memory it points to is a
   list; the 21 arrays of a set do not overlap each other nor those of another set
   (arrays inside one set never do: see init_from_flat_arrays and C06).
   int64 indices are unbounded integers Z.  SIXTRL_ASSERT is disabled (release build).
   None = an access outside an attribute array, i.e. undefined behaviour.
   NULL particle sets and destination == source are excluded by the types
   (particles.h rejects both). *)
From Coq Require Import ZArith List Bool.
From Verif Require Import Particle Elements.
Import ListNotations.
Local Open Scope Z_scope.
Set Implicit Arguments.

(* a[ i ] of an array a *)
Definition aget {A : Type} (a : list A) (i : Z) : option A :=
  if 0 <=? i then nth_error a (Z.to_nat i) else None.

(* a[ i ] = v *)
Definition aput {A : Type} (a : list A) (i : Z) (v : A) : option (list A) :=
  if (0 <=? i) && (i <? Z.of_nat (length a)) then Some (upd a (Z.to_nat i) v) else None.

(* SIXTRACKLIB_COPY_VALUES, sixtracklib/common/definitions.h 560-587 (host):
   memcpy of n values from src + s to dst + d *)
Definition acopy {A : Type} (dst : list A) (d : Z) (src : list A) (s n : Z) : option (list A) :=
  if (0 <=? d) && (0 <=? s) && (0 <=? n) && (d + n <=? Z.of_nat (length dst)) &&
     (s + n <=? Z.of_nat (length src)) then
    Some (firstn (Z.to_nat d) dst ++ firstn (Z.to_nat n) (skipn (Z.to_nat s) src) ++
          skipn (Z.to_nat (d + n)) dst)
  else None.

(* SIXTRACKLIB_SET_VALUES, definitions.h 658-678: n values from a + d on; on the host a
   memset, used with the value 0 only (all-zero bytes are 0.0 and 0) *)
Definition afill {A : Type} (a : list A) (d n : Z) (v : A) : option (list A) :=
  if (0 <=? d) && (0 <=? n) && (d + n <=? Z.of_nat (length a)) then
    Some (firstn (Z.to_nat d) a ++ repeat v (Z.to_nat n) ++ skipn (Z.to_nat (d + n)) a)
  else None.

Definition obind {A B : Type} (m : option A) (f : A -> option B) : option B :=
  match m with Some a => f a | None => None end.

(* particles.h 60-90: struct Particles; also ParticlesGenericAddr, whose members are
   the addresses of the same arrays in the same order (store_addresses 1468-1501,
   init_from_generic_addr 1503-1537 are then identities) *)
Record pset (T : Type) := mkPset {
  ps_num : Z;''')
w("  "+";\n  ".join(f"ps_{a} : list {ty(a)}" for a in A)+" }.\n")
w("(* pointer assignments / stores through them *)")
for k,a in enumerate(A):
    args=" ".join("l" if b==a else f"(ps_{b} r)" for b in A)
    w(f"Definition with_{a} T (l : list {ty(a)}) (r : pset T) : pset T :=\n  mkPset (ps_num r) {args}.")
w('''
(* dest->a[ di ] = src->a[ si ], particles.h, e.g. Particles_set_q0_value /
   Particles_get_q0_value *)
Definition copy_value {T A : Type} (get : pset T -> list A) (put : list A -> pset T -> pset T)
    (di : Z) (src : pset T) (si : Z) (dest : pset T) : option (pset T) :=
  obind (aget (get src) si) (fun v => obind (aput (get dest) di v) (fun l =>
    Some (put l dest))).

(* p->a[ i ] = v *)
Definition set_value {T A : Type} (get : pset T -> list A) (put : list A -> pset T -> pset T)
    (i : Z) (v : A) (p : pset T) : option (pset T) :=
  obind (aput (get p) i v) (fun l => Some (put l p)).

(* SIXTRACKLIB_COPY_VALUES for one attribute *)
Definition copy_values {T A : Type} (get : pset T -> list A) (put : list A -> pset T -> pset T)
    (d : Z) (src : pset T) (s n : Z) (dest : pset T) : option (pset T) :=
  obind (acopy (get dest) d (get src) s n) (fun l => Some (put l dest)).

(* SIXTRACKLIB_SET_VALUES for one attribute *)
Definition fill_values {T A : Type} (get : pset T -> list A) (put : list A -> pset T -> pset T)
    (d n : Z) (v : A) (p : pset T) : option (pset T) :=
  obind (afill (get p) d n v) (fun l => Some (put l p)).

Notation "p <- m ;; k" := (obind m (fun p => k)) (at level 61, m at next level, right associativity).

Definition SUCCESS : Z := 0.
Definition FAILURE : Z := -1.
''')
def chain(f,attrs,last):
    s="".join(f"  d <- {f(a)} d ;;\n" for a in attrs)
    return s+"  "+last
w("(* The 21 assignments of copy_single, copy_from_generic_addr_data and\n   copy_to_generic_addr_data, which are the same in the same order\n   (particles.h 2857-2918, 1624-1686, 1735-1797). *)")
w("Definition copy_all_values T (di : Z) (src : pset T) (si : Z) (d : pset T) : option (pset T) :=")
w(chain(lambda a:f"copy_value (@ps_{a} T) (@with_{a} T) di src si",A,"Some d."))
w('''
(* particles.h 2827-2925: copy_single; (destination, status) *)
Definition copy_single T (dest : pset T) (destination_idx : Z) (source : pset T)
    (source_idx : Z) : option (pset T * Z) :=
  let dest_num := ps_num dest in
  let source_num := ps_num source in
  let di := if ((destination_idx <? 0) || (dest_num <? destination_idx)) then
              (if source_idx <? dest_num then source_idx else destination_idx)
            else destination_idx in
  if (0 <=? source_idx) && (source_idx <? source_num) && (0 <=? di) && (di <? dest_num) then
    d <- copy_all_values di source source_idx dest ;; Some (d, SUCCESS)
  else Some (dest, FAILURE).

(* particles.h 1584-1692: copy_from_generic_addr_data *)
Definition copy_from_generic T (dest : pset T) (dest_idx : Z) (src : pset T) (src_idx : Z) :
    option (pset T * Z) :=
  if (src_idx <? ps_num src) && (dest_idx <? ps_num dest) then
    d <- copy_all_values dest_idx src src_idx dest ;; Some (d, SUCCESS)
  else Some (dest, FAILURE).

(* particles.h 1695-1803: copy_to_generic_addr_data *)
Definition copy_to_generic T (dest : pset T) (dest_idx : Z) (src : pset T) (src_idx : Z) :
    option (pset T * Z) :=
  if (src_idx <? ps_num src) && (dest_idx <? ps_num dest) then
    d <- copy_all_values dest_idx src src_idx dest ;; Some (d, SUCCESS)
  else Some (dest, FAILURE).
''')
w("(* particles.h 3013-3093: the 21 COPY_VALUES of copy_range, in that order *)")
w("Definition copy_all_ranges T (ds : Z) (src : pset T) (ss n : Z) (d : pset T) : option (pset T) :=")
w(chain(lambda a:f"copy_values (@ps_{a} T) (@with_{a} T) ds src ss n",RANGE,"Some d."))
w('''
(* particles.h 2928-3097: copy_range *)
Definition copy_range T (dest source : pset T) (source_start source_end dest_start : Z) :
    option (pset T * Z) :=
  let num_to_copy := if source_start <=? source_end then source_end - source_start else 0 in
  let source_num := ps_num source in
  let dest_num := ps_num dest in
  let ds := if (dest_start <? 0) || (dest_num <=? dest_start) then
              (if source_end <? dest_num then source_start else dest_start)
            else dest_start in
  if (0 <=? source_start) && (source_start <=? source_end) && (source_end <=? source_num) &&
     (0 <=? ds) && (ds + num_to_copy <=? dest_num) then
    d <- copy_all_ranges ds source source_start num_to_copy dest ;; Some (d, SUCCESS)
  else Some (dest, FAILURE).

(* particles.h 3100-3118: copy *)
Definition copy_set T (dest source : pset T) : option (pset T * Z) :=
  let num := ps_num source in
  if (0 <? num) && (num =? ps_num dest) then copy_range dest source 0 num 0
  else Some (dest, FAILURE).
''')
w("(* particles.h 3422-3463: clear_single *)")
w("Definition clear_single T (zero : T) (p : pset T) (i : Z) : option (pset T) :=\n  if (0 <=? i) && (i <? ps_num p) then\n  let d := p in")
w(chain(lambda a:f"set_value (@ps_{a} T) (@with_{a} T) i {'zero' if a in R else '0'}",A,"Some d\n  else Some p."))
w("\n(* particles.h 3466-3579: clear_range *)")
w("Definition clear_range T (zero : T) (p : pset T) (start_index end_index : Z) : option (pset T) :=\n  if (0 <=? start_index) && (start_index <=? end_index) && (end_index <=? ps_num p) then\n  let len := end_index - start_index in\n  let d := p in")
w(chain(lambda a:f"fill_values (@ps_{a} T) (@with_{a} T) start_index len {'zero' if a in R else '0'}",A,"Some d\n  else Some p."))
w('''
(* particles.h 3582-3589: clear *)
Definition clear T (zero : T) (p : pset T) : option (pset T) :=
  clear_range zero p 0 (ps_num p).
''')
w("(* particles.h 2592-2618: loop body of preset_values *)")
w("Definition preset_value T (zero : T) (i : Z) (d : pset T) : option (pset T) :=")
pv={"particle_id":"(-1)","at_element_id":"(-1)","at_turn":"(-1)","state":"1"}
w(chain(lambda a:f"set_value (@ps_{a} T) (@with_{a} T) i {pv.get(a,'zero')}",RANGE,"Some d."))
w('''
(* for( ; ii < num ; ++ii ) body *)
Fixpoint for_from {S : Type} (body : Z -> S -> option S) (ii : Z) (count : nat) (s : S) : option S :=
  match count with
  | O => Some s
  | Datatypes.S n => obind (body ii s) (for_from body (ii + 1) n)
  end.

(* particles.h 2538-2621: preset_values *)
Definition preset_values T (zero : T) (p : pset T) : option (pset T) :=
  let num := if 0 <=? ps_num p then ps_num p else 0 in
  for_from (@preset_value T zero) 0 (Z.to_nat num) p.

(* particles.h 1539-1582: init_from_flat_arrays; the k-th attribute array of length
   num starts at offset k * num.  None: num <= 0, the set is not initialised. *)
Definition slice {A : Type} (a : list A) (k num : Z) : list A :=
  firstn (Z.to_nat num) (skipn (Z.to_nat (k * num)) a).
''')
ar=" ".join(f"(slice real_array {k} num)" for k in range(17))+" "+" ".join(f"(slice index_array {k} num)" for k in range(4))
w(f"Definition init_from_flat_arrays T (num : Z) (real_array : list T) (index_array : list Z) :\n    option (pset T) :=\n  if 0 <? num then Some (mkPset num {ar}) else None.")
w('''
(* ------------------------------------------------------------------ *)
(* Specification view: the particle at position i, all 21 attributes. *)
Definition pset_at T (p : pset T) (i : Z) : option (particle T) :=''')
for a in A: w(f"  v_{a} <- aget (ps_{a} p) i ;;")
w("  Some (mkParticle "+" ".join(f"v_{a}" for a in A)+").")
w("\n(* every attribute array has as many entries as the set has particles *)")
w("Definition pset_wf T (p : pset T) : Prop :=\n  0 <= ps_num p /\\")
w("  "+" /\\\n  ".join(f"Z.of_nat (length (ps_{a} p)) = ps_num p" for a in A)+".")
w("\n(* the set holding a list of particles *)")
w("Definition pset_of T (l : list (particle T)) : pset T :=\n  mkPset (Z.of_nat (length l)) "+" ".join(f"(map (@p_{a} T) l)" for a in A)+".")
open('/verif/rocq/theories/ParticleSet.v','w').write("\n".join(o)+"\n")
