(* Tracking loops over one particle: sixtracklib/common/track/track.h 586-822,
   and over particle sets: track/track.c, track/track_kernel_impl.h.
   The loops are parametric in the element map [disp] (the dispatcher), so that
   theorems about them hold for every element implementation; they are
   instantiated with Elements.dispatch. *)
From Coq Require Import ZArith List Bool.
From Verif Require Import Num Particle Elements EbeConfig.
Import ListNotations.

Set Implicit Arguments.

(* Outcome of running C code: a value, undefined behaviour, or (model artefact)
   exhausted loop fuel. *)
Inductive res (A : Type) :=
| Ok (a : A)
| Undef
| NoFuel.
Arguments Ok {A}. Arguments Undef {A}. Arguments NoFuel {A}.

Definition bind {A B} (m : res A) (f : A -> res B) : res B :=
  match m with Ok a => f a | Undef => Undef | NoFuel => NoFuel end.

Section Loops.
Variables (T E M : Type).
Variable zero : T.                     (* literal 0.0 *)
(* the dispatcher; [M] is the memory elements may write besides the particle *)
Variable disp : E -> particle T -> M -> option (particle T * M * Z).

Definition call_disp (be : E) (p : particle T) (o : M) : res (particle T * M * Z) :=
  match disp be p o with Some r => Ok r | None => Undef end.

(* track.h 586-607: Track_particle_beam_element_obj *)
Definition track_beam_element_obj (be : E) (p : particle T) (o : M)
  : res (particle T * M * Z) :=
  if is_not_lost p then
    bind (call_disp be p o) (fun r => let '(p, o, status) := r in
      if (status =? 0)%Z && is_not_lost p
      then Ok (incr_at_element p, o, status) else Ok (p, o, status))
  else Ok (p, o, 0%Z).

(* track.h 640-654: inner loop of until_turn; result: particle, memory, success,
   continue_tracking *)
Fixpoint turn_pass (bes : list E) (p : particle T) (o : M) (success : Z)
  : res (particle T * M * Z * bool) :=
  match bes with
  | [] => Ok (p, o, success, true)
  | be :: rest =>
    bind (call_disp be p o) (fun r => let '(p, o, success) := r in
      if (success =? 0)%Z && is_not_lost p
      then turn_pass rest (incr_at_element p) o success
      else Ok (p, o, success, false))
  end.

(* track.h 656-661: end of turn *)
Definition end_of_turn (start_at_element : Z) (p : particle T) : particle T :=
  set_s zero (incr_at_turn (set_at_element_id start_at_element p)).

(* track.h 636-668: outer loop, entered with continue_tracking = true *)
Fixpoint until_turn_loop (fuel : nat) (bes : list E) (start_at_element until_turn : Z)
    (p : particle T) (o : M) (success : Z) : res (particle T * M * Z) :=
  match fuel with
  | O => NoFuel
  | S fuel =>
    bind (turn_pass bes p o success) (fun r => let '(p, o, success, cont) := r in
      if cont then
        let p := end_of_turn start_at_element p in
        if (p_at_turn p <? until_turn)%Z
        then until_turn_loop fuel bes start_at_element until_turn p o success
        else Ok (p, o, success)
      else Ok (mark_as_lost p, o, success))
  end.

(* track.h 609-671: Track_particle_until_turn_objs.  be_begin < be_end iff the
   element list is not empty. *)
Definition track_until_turn (bes : list E) (until_turn : Z) (p : particle T) (o : M)
  : res (particle T * M * Z) :=
  let success := match bes with [] => (-1)%Z | _ => 0%Z end in
  if (success =? 0)%Z && (p_at_turn p <? until_turn)%Z && is_not_lost p then
    until_turn_loop (Z.to_nat (until_turn - p_at_turn p)) bes (p_at_element_id p)
      until_turn p o success
  else Ok (p, o, success).

(* The element-by-element output: num_particles of the output set and the store
   Particles_copy_to_generic_addr_data( out_particles, out_idx, p, idx ).  The
   source index is valid, so the store can only fail if out_idx is not below
   num_particles; result: None = undefined behaviour. *)
Variable out_num : M -> nat -> option Z.
Variable out_store : M -> nat -> Z -> particle T -> option (M * Z).

(* track.h 719-771: inner while loop of the element-by-element version, starting
   at be_it = bes (a non-empty suffix of the line).
   Result: particle, memory, success, continue_tracking, at_turn. *)
Fixpoint ebe_pass (c : ebe_config) (k : nat) (out_nn : Z) (part_id start_elem until_turn : Z)
    (bes : list E) (at_element at_turn : Z) (p : particle T) (o : M) (success : Z)
  : res (particle T * M * Z * bool * Z) :=
  match bes with
  | [] => Ok (p, o, success, true, at_turn)
  | be :: rest =>
    let out_idx := ebe_store_index c part_id at_element at_turn in
    bind (if (0 <=? out_idx)%Z && (out_idx <? out_nn)%Z then
            match out_store o k out_idx p with
            | None => Undef
            | Some (o, st) => Ok (o, (st =? 0)%Z)
            end
          else Ok (o, true))
      (fun r => let '(o, cont) := r in
       if cont then
         bind (call_disp be p o) (fun r => let '(p, o, success) := r in
           if (success =? 0)%Z && is_not_lost p then
             match rest with
             | [] =>
               let p := set_at_element_id start_elem p in
               let p := set_s zero p in
               let p := incr_at_turn p in
               let at_turn := (at_turn + 1)%Z in
               Ok (p, o, success, (at_turn <? until_turn)%Z, at_turn)
             | _ =>
               ebe_pass c k out_nn part_id start_elem until_turn rest
                 (at_element + 1)%Z at_turn (incr_at_element p) o success
             end
           else Ok (p, o, success, false, at_turn))
       else Ok (p, o, success, false, at_turn))
  end.

(* track.h 713-772: outer while loop *)
Fixpoint ebe_loop (fuel : nat) (c : ebe_config) (k : nat) (out_nn : Z)
    (part_id start_elem until_turn : Z) (bes : list E) (at_turn : Z)
    (p : particle T) (o : M) (success : Z) : res (particle T * M * Z) :=
  match fuel with
  | O => NoFuel
  | S fuel =>
    bind (ebe_pass c k out_nn part_id start_elem until_turn bes start_elem at_turn p o success)
      (fun r => let '(p, o, success, cont, at_turn) := r in
       if cont
       then ebe_loop fuel c k out_nn part_id start_elem until_turn bes at_turn p o success
       else Ok (p, o, success))
  end.

(* track.h 672-777: Track_particle_element_by_element_until_turn_objs.
   Note: no test that the particle is not lost (track.h 704-707), as in the code. *)
Definition track_ebe (c : ebe_config) (bes : list E) (until_turn : Z)
    (p : particle T) (o : M) : res (particle T * M * Z) :=
  match e_out c with
  | Some k =>
    match out_num o k with
    | None => Undef
    | Some out_nn =>
      let part_id := p_particle_id p in
      let start_elem := p_at_element_id p in
      let at_turn := p_at_turn p in
      if match bes with [] => false | _ => true end &&
         (at_turn <? until_turn)%Z && (0 <=? at_turn)%Z &&
         (0 <=? start_elem)%Z && (0 <=? part_id)%Z then
        ebe_loop (Z.to_nat (until_turn - at_turn)) c k out_nn part_id start_elem
          until_turn bes at_turn p o 0%Z
      else Ok (p, o, 0%Z)
    end
  | None => track_until_turn bes until_turn p o
  end.

(* track.h 799-813: while loop of Track_particle_line_objs *)
Fixpoint line_pass (bes : list E) (p : particle T) (o : M) (success : Z)
  : res (particle T * M * Z) :=
  match bes with
  | [] => Ok (p, o, success)
  | be :: rest =>
    bind (call_disp be p o) (fun r => let '(p, o, success) := r in
      if (success =? 0)%Z && is_not_lost p
      then line_pass rest (incr_at_element p) o success
      else Ok (p, o, success))
  end.

(* track.h 779-822: Track_particle_line_objs, on the elements [line_it, line_end) *)
Definition track_line (bes : list E) (finish_turn : bool) (p : particle T) (o : M)
  : res (particle T * M * Z) :=
  bind (if is_not_lost p then line_pass bes p o 0%Z else Ok (p, o, 0%Z))
    (fun r => let '(p, o, success) := r in
     if finish_turn && (success =? 0)%Z && is_not_lost p then
       Ok (set_s zero (incr_at_turn (set_at_element_id 0 p)), o, success)
     else Ok (p, o, success)).

End Loops.

(* num_particles of output set k *)
Definition outs_num (T : Type) (outs : outsets T) (k : nat) : option Z :=
  match nth_error outs k with
  | Some l => Some (Z.of_nat (List.length l))
  | None => None
  end.

(* The loops with the dispatcher of Elements.v and the output buffer, i.e. the
   functions Track_particle_until_turn_objs, Track_particle_element_by_element_
   until_turn_objs, Track_particle_line_objs and Track_particle_beam_element_obj
   of track/track.h. *)
Section Instance.
Context {T : Type} (N : NumOps T) (c : config T).

Definition until_turn (lattice : list (element T)) (turn : Z) :=
  track_until_turn (nzero N) (dispatch N c) lattice turn.
Definition elem_by_elem (cfg : ebe_config) (lattice : list (element T)) (turn : Z) :=
  track_ebe (nzero N) (dispatch N c) (@outs_num T) (@store_out T) cfg lattice turn.
Definition line (elems : list (element T)) (finish_turn : bool) :=
  track_line (nzero N) (dispatch N c) elems finish_turn.
Definition one_element (be : element T) :=
  track_beam_element_obj (dispatch N c) be.
End Instance.
