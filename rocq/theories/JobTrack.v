(* Particle sets of a track job and tracking with a CPU job:
   track/track_job_base.hpp 1285-1396, track/track_job_base.cpp 318-545, 577-700, 2631-2680,
   3320-3334, 3446-3475, track/track_job_cpu.{hpp,cpp}. *)
From Coq Require Import ZArith List Bool.
From Verif Require Import Num Particle Elements EbeConfig Track ParticleSet ParticleIds Output Kernels ThreadsSpec.
Import ListNotations.
Local Open Scope Z_scope.

Set Implicit Arguments.

(* m_particle_set_indices, m_particle_set_begin_offsets, m_particle_set_end_offsets,
   m_num_particle_sets_in_buffer, m_total_num_particles, m_total_num_particles_in_sets *)
Record psets := mkPsets {
  q_idx : list Z; q_begin : list Z; q_end : list Z;
  q_in_buffer : Z; q_total : Z; q_total_in_sets : Z }.

(* std::sort, track_job_base.hpp 1316 (any sorting algorithm gives this list) *)
Fixpoint insert (x : Z) (l : list Z) : list Z :=
  match l with
  | [] => [x]
  | y :: r => if x <=? y then x :: l else y :: insert x r
  end.
Fixpoint sort (l : list Z) : list Z :=
  match l with [] => [] | x :: r => insert x (sort r) end.

(* std::unique and erase, track_job_base.hpp 1319-1322: of equal neighbours the first *)
Fixpoint unique (l : list Z) : list Z :=
  match l with
  | [] => []
  | x :: r => match unique r with
              | [] => [x]
              | y :: r' => if x =? y then y :: r' else x :: y :: r'
              end
  end.

Section Sets.
Variable T : Type.

(* particles.h 3808-3826 with 2652-2668: the particle set of an object, null for an object
   that is not larger than the handle or has another type; particles.h 2626-2632: a null
   pointer has no particles *)
Definition seen (ob : pobj T) : option Z :=
  match ob with
  | Part p => if 0 <? ps_num p then Some (ps_num p) else None
  | Other => None
  end.
Definition seen_num (ob : pobj T) : Z := match seen ob with Some n => n | None => 0 end.

(* particles.h 3745-3796: Particles_buffer_get_num_of_particle_blocks *)
Fixpoint stored_sets (objs : list (pobj T)) : Z :=
  match objs with
  | [] => 0
  | ob :: rest => (match seen ob with Some _ => 1 | None => 0 end) + stored_sets rest
  end.

(* track_job_base.hpp 1340-1374: the loop over the objects of the buffer; [it]: the indices
   from the iterator on, [acc]: (index, begin offset, end offset) pushed so far *)
Fixpoint sets_loop (objs : list (pobj T)) (ii : Z) (it : list Z) (acc : list (Z * Z * Z))
    (running total : Z) : list (Z * Z * Z) * Z * Z :=
  match objs with
  | [] => (acc, running, total)
  | ob :: rest =>
    let '(it, acc, total) :=
      match it with
      | i :: it' =>
        if ii =? i then
          match seen ob with
          | Some n => (it', acc ++ [(ii, running, running + n)], total + n)
          | None => (it', acc, total)
          end
        else (it, acc, total)
      | [] => (it, acc, total)
      end in
    sets_loop rest (ii + 1) it acc
      (match seen ob with Some n => running + n | None => running end) total
  end.

(* track_job_base.hpp 1285-1396: doSetParticleSetIndices.  int64 counts do not overflow. *)
Definition set_sets (s : psets) (idx : list Z) (objs : list (pobj T)) : psets * Z :=
  let cleared := mkPsets [] [] [] (q_in_buffer s) (q_total s) (q_total_in_sets s) in
  if (0 <? Z.of_nat (length objs)) && (0 <? stored_sets objs) then
    match unique (sort idx) with
    | [] => (cleared, FAILURE)
    | l =>
      let '(acc, running, total) := sets_loop objs 0 l [] 0 0 in
      (mkPsets (map (fun a => fst (fst a)) acc) (map (fun a => snd (fst a)) acc) (map snd acc)
         (stored_sets objs) running total,
       match acc with [] => FAILURE | _ => SUCCESS end)
    end
  else (cleared, FAILURE).

(* track_job_base.cpp 3320-3332: doInitDefaultParticleSetIndices *)
Definition default_sets (s : psets) : psets :=
  mkPsets [0] [0] [0] (q_in_buffer s) (q_total s) (q_total_in_sets s).
(* track_job_base.cpp 1732-1776: a new job *)
Definition new_sets : psets := default_sets (mkPsets [] [] [] 0 0 0).
(* track_job_base.cpp 3454-3482: doClearParticlesStructuresBaseImpl *)
Definition clear_sets (s : psets) : psets := default_sets (mkPsets [] [] [] 0 0 0).

(* track_job_base.cpp 577-603: numParticleSets, particleSetIndex (None: out_of_range) *)
Definition num_sets (s : psets) : Z := Z.of_nat (length (q_idx s)).
Definition set_index (s : psets) (k : Z) : option Z := aget (q_idx s) k.
(* track_job_base.cpp 607-617: particleSetBeginIndexOffset, particleSetEndIndexOffset *)
Definition begin_offset (s : psets) (k : Z) : option Z := aget (q_begin s) k.
Definition end_offset (s : psets) (k : Z) : option Z := aget (q_end s) k.
(* track_job_base.cpp 619-644: numParticlesInSet *)
Definition num_in_set (s : psets) (k : Z) : Z :=
  if (k <? num_sets s) && (Z.of_nat (length (q_begin s)) =? Z.of_nat (length (q_end s))) &&
     (Z.of_nat (length (q_begin s)) =? num_sets s) then
    match aget (q_begin s) k, aget (q_end s) k with
    | Some b, Some e => if b <? e then e - b else 0
    | _, _ => 0
    end
  else 0.

End Sets.

(* ---------------- set-up ---------------- *)

Section Setup.
Variables (T : Type) (blank : particle T) (room : outsets T -> Z -> bool).

(* the particle sets, and what doReset prepares (Output.v) *)
Definition tjob := (psets * job T)%type.

(* track_job_cpu.cpp 227-385 and track_job_cpu.hpp 197-253: the constructors, without
   ([None]) and with particle set indices.  The status of doSetParticleSetIndices is
   tested by an assertion only; the status in the result is that of doReset (the
   constructors test it by an assertion as well). *)
Definition create (idx : option (list Z)) (objs : list (pobj T)) (until : Z)
    (line : list (element T)) (outs : outsets T) : option (tjob * Z) :=
  let s := match idx with None => new_sets | Some idx => fst (set_sets new_sets idx objs) end in
  match job_reset blank room false ORDER_DEFAULT true objs (q_idx s) until line outs with
  | Some (j, st) => Some (s, j, st)
  | None => None
  end.

(* track_job_base.cpp 2641-2656: the particle structures are kept if the job is reset with
   the particles buffer it has ([same]) and the sets it has *)
Definition keeps_sets (same : bool) (s : psets) (idx : list Z) : bool :=
  same && (num_sets s =? Z.of_nat (length idx)) &&
  forallb (fun p => fst p =? snd p) (combine idx (q_idx s)).

(* track_job_base.cpp 406-441 (351-404 and track_job_base.hpp 1165-1206 call it): reset with
   particle set indices.  The output structures are cleared in any case below; an output
   buffer passed again is not modelled (outs: the new output buffer). *)
Definition reset_sets (s : psets) (same : bool) (idx : list Z) (objs : list (pobj T)) (until : Z)
    (line : list (element T)) (outs : outsets T) : option (psets * option (job T) * Z) :=
  let keep := keeps_sets same s idx in
  let s := if keep then s else clear_sets s in
  let '(s, st) := match idx with
                  | [] => (default_sets s, SUCCESS)
                  | _ => set_sets s idx objs
                  end in
  if st =? 0 then
    match job_reset blank room keep ORDER_DEFAULT true objs (q_idx s) until line outs with
    | Some (j, st) => Some (s, Some j, st)
    | None => None
    end
  else Some (s, None, st).

(* track_job_base.cpp 317-349, 375-392: reset without particle set indices *)
Definition reset_plain (s : psets) (same : bool) (objs : list (pobj T)) (until : Z)
    (line : list (element T)) (outs : outsets T) : option (psets * option (job T) * Z) :=
  let keep := same in
  let s := if keep then s else clear_sets s in
  match job_reset blank room keep ORDER_DEFAULT true objs (q_idx s) until line outs with
  | Some (j, st) => Some (s, Some j, st)
  | None => None
  end.

End Setup.

(* ---------------- selectParticleSet ---------------- *)

(* the buffers of a job, by name: m_ptr_particles_buffer, m_ptr_c_particles_buffer, and the
   same for the beam elements and the output; [jp_own]: m_my_output_buffer *)
Record jptr := mkJptr {
  jp_p : option Z; jp_pc : option Z; jp_e : option Z; jp_ec : option Z;
  jp_o : option Z; jp_oc : option Z; jp_own : option Z }.

(* a call of reset: buffers and set index *)
Record reset_call := mkCall {
  rc_particles : Z; rc_elements : Z; rc_output : option Z; rc_set : Z }.

Definition opt_eq (a b : option Z) : bool :=
  match a, b with Some x, Some y => x =? y | None, None => true | _, _ => false end.
Definition has (a : option Z) : bool := match a with Some _ => true | None => false end.

(* track_job_base.cpp 1336-1346: ownsOutputBuffer *)
Definition owns_output (j : jptr) : bool := has (jp_o j) && opt_eq (jp_own j) (jp_o j).

(* track_job_base.cpp 465-541: selectParticleSet; None: no call of reset, failure.
   [num]: objects in the particles buffer; [ready]: neither buffer needs remapping.
   The pointer named ptr_particles_buffer is the one of the output buffer (474). *)
Definition select_call (j : jptr) (num : Z) (ready : bool) (i : Z) : option reset_call :=
  match jp_pc j, jp_ec j with
  | Some pc, Some ec =>
    if ready && (i <? num) then
      let ext := has (jp_oc j) && negb (owns_output j) in
      match jp_o j, jp_e j with
      | Some p, Some e => Some (mkCall p e (if ext then jp_o j else None) i)
      | _, _ => Some (mkCall pc ec (if ext then jp_oc j else None) i)
      end
    else None
  | _, _ => None
  end.

(* track_job_base.cpp 2668-2680 and 3490-3516: the output buffer the job owns and deletes
   before it looks at the buffers it is reset with *)
Definition deletes (j : jptr) (c : reset_call) : option Z :=
  if has (rc_output c) && opt_eq (rc_output c) (jp_oc j) then None else jp_own j.

(* ---------------- tracking ---------------- *)

Section Track.
Variables (T M : Type).
Variable track : particle T -> M -> res (particle T * M * Z).

(* track_job_cpu.cpp 70-85, 130-149, 191-205: the loop over more than one set *)
Fixpoint track_sets (sets : list Z) (objs : list (pobj T)) (o : M) (status : Z)
  : res (list (pobj T) * M * Z) :=
  match sets with
  | [] => Ok (objs, o, status)
  | i :: rest =>
    bind (plain_buffer_kernel track objs i 0 1 o) (fun r => let '(objs, o, st) := r in
      track_sets rest objs o (Z.lor status st))
  end.

(* track_job_cpu.cpp 46-88, 103-155, 157-208 *)
Definition cpu_track (sets : list Z) (objs : list (pobj T)) (o : M)
  : res (list (pobj T) * M * Z) :=
  match sets with
  | [] => Ok (objs, o, FAILURE)
  | [i] => plain_buffer_kernel track objs i 0 1 o
  | _ => track_sets sets objs o 0
  end.
End Track.

Section Job.
Variables (T : Type) (N : NumOps T) (c : config T).

(* what the user asks of a job *)
Inductive request :=
| TrackUntil (turn : Z)
| TrackElemByElem (turn : Z)
| TrackLine (begin_idx end_idx : Z) (finish_turn : bool).

(* track_job_cpu.cpp 46-208: trackUntil, trackElemByElem, trackLine *)
Definition cpu_run (j : tjob T) (r : request) (objs : list (pobj T)) (o : outsets T)
  : res (list (pobj T) * outsets T * Z) :=
  let sets := q_idx (fst j) in
  match r with
  | TrackUntil turn => cpu_track (alone N c (UntilTurn (j_line (snd j)) turn)) sets objs o
  | TrackElemByElem turn =>
    match j_ebe (snd j) with
    | Some cfg =>
      if j_ebe_on (snd j)
      then cpu_track (alone N c (ElemByElem cfg (j_line (snd j)) turn)) sets objs o
      else Ok (objs, o, FAILURE)
    | None => Ok (objs, o, FAILURE)
    end
  | TrackLine b e fin =>
    match sets, line_range (j_line (snd j)) b e with
    | [], _ => Ok (objs, o, FAILURE)
    | _, Some els => cpu_track (alone N c (Line els fin)) sets objs o
    | _, None => Undef
    end
  end.
End Job.
