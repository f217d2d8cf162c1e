(* Concurrent execution: every particle is tracked by its own thread, the threads share the
   output memory, and the steps of the threads are interleaved arbitrarily.  This is the
   execution model of the OpenCL / CUDA kernels, where a particle index belongs to exactly
   one work-item: opencl/kernels/track_particles.cl and cuda/kernels/track_particles.cu
   calling the functions of track/track_kernel_impl.h with pidx = global id and stride =
   global size.  A work-item handling several particles one after the other is one of the
   possible interleavings of their threads.
   A thread is a sequence of atomic actions on the memory; one action is the call of one
   beam element's tracking function or one store into the element-by-element output.  The
   thread programs below are the loops of Track.v cut at these points
   (proved in ThreadsProofs.v: running a thread alone is the loop of Track.v). *)
From Coq Require Import ZArith List Bool.
From Verif Require Import Num Particle Elements EbeConfig Track.
Import ListNotations.
Local Open Scope Z_scope.

Set Implicit Arguments.

Inductive prog (M A : Type) :=
| Ret (a : A)                                   (* finished *)
| Act (f : M -> option (M * prog M A))          (* one atomic action; None: undefined *)
| OutOfFuel.
Arguments Ret {M A}. Arguments Act {M A}. Arguments OutOfFuel {M A}.

(* a thread running alone *)
Fixpoint run (M A : Type) (p : prog M A) (o : M) : res (M * A) :=
  match p with
  | Ret a => Ok (o, a)
  | Act f => match f o with Some (o', k) => run k o' | None => Undef end
  | OutOfFuel => NoFuel
  end.

(* one step of thread i in a pool of threads *)
Definition step (M A : Type) (i : nat) (pool : list (prog M A)) (o : M)
  : res (list (prog M A) * M) :=
  match nth_error pool i with
  | None => Ok (pool, o)
  | Some (Ret _) => Ok (pool, o)
  | Some (Act f) =>
    match f o with Some (o', k) => Ok (upd pool i k, o') | None => Undef end
  | Some OutOfFuel => NoFuel
  end.

(* a schedule: the sequence of thread numbers that make a step *)
Fixpoint exec (M A : Type) (sched : list nat) (pool : list (prog M A)) (o : M)
  : res (list (prog M A) * M) :=
  match sched with
  | [] => Ok (pool, o)
  | i :: rest => bind (step i pool o) (fun r => let '(pool, o) := r in exec rest pool o)
  end.

Section Programs.
Variables (T E M : Type).
Variable zero : T.
Variable disp : E -> particle T -> M -> option (particle T * M * Z).
Let P := prog M (particle T * Z).

(* track.h 640-654, cf. Track.turn_pass *)
Fixpoint turn_pass_p (bes : list E) (p : particle T) (success : Z)
    (k : particle T -> Z -> bool -> P) : P :=
  match bes with
  | [] => k p success true
  | be :: rest =>
    Act (fun o => match disp be p o with
      | None => None
      | Some (p, o, success) => Some (o,
          if (success =? 0) && is_not_lost p
          then turn_pass_p rest (incr_at_element p) success k
          else k p success false)
      end)
  end.

(* track.h 636-668, cf. Track.until_turn_loop *)
Fixpoint until_turn_loop_p (fuel : nat) (bes : list E) (start_at_element until_turn : Z)
    (p : particle T) (success : Z) : P :=
  match fuel with
  | O => OutOfFuel
  | S fuel =>
    turn_pass_p bes p success (fun p success cont =>
      if cont then
        let p := end_of_turn zero start_at_element p in
        if p_at_turn p <? until_turn
        then until_turn_loop_p fuel bes start_at_element until_turn p success
        else Ret (p, success)
      else Ret (mark_as_lost p, success))
  end.

(* track.h 609-671, cf. Track.track_until_turn *)
Definition track_until_turn_p (bes : list E) (until_turn : Z) (p : particle T) : P :=
  let success := match bes with [] => -1 | _ => 0 end in
  if (success =? 0) && (p_at_turn p <? until_turn) && is_not_lost p then
    until_turn_loop_p (Z.to_nat (until_turn - p_at_turn p)) bes (p_at_element_id p)
      until_turn p success
  else Ret (p, success).

Variable out_num : M -> nat -> option Z.
Variable out_store : M -> nat -> Z -> particle T -> option (M * Z).

(* track.h 719-771, cf. Track.ebe_pass *)
Fixpoint ebe_pass_p (c : ebe_config) (k : nat) (out_nn : Z) (part_id start_elem until_turn : Z)
    (bes : list E) (at_element at_turn : Z) (p : particle T) (success : Z)
    (cont : particle T -> Z -> bool -> Z -> P) : P :=
  match bes with
  | [] => cont p success true at_turn
  | be :: rest =>
    let out_idx := ebe_store_index c part_id at_element at_turn in
    let go := Act (fun o => match disp be p o with
      | None => None
      | Some (p, o, success) => Some (o,
           if (success =? 0) && is_not_lost p then
             match rest with
             | [] =>
               let p := set_at_element_id start_elem p in
               let p := set_s zero p in
               let p := incr_at_turn p in
               let at_turn := at_turn + 1 in
               cont p success (at_turn <? until_turn) at_turn
             | _ =>
               ebe_pass_p c k out_nn part_id start_elem until_turn rest
                 (at_element + 1) at_turn (incr_at_element p) success cont
             end
           else cont p success false at_turn)
      end) in
    if (0 <=? out_idx) && (out_idx <? out_nn) then
      Act (fun o => match out_store o k out_idx p with
        | None => None
        | Some (o, st) => Some (o, if st =? 0 then go else cont p success false at_turn)
        end)
    else go
  end.

(* track.h 713-772, cf. Track.ebe_loop *)
Fixpoint ebe_loop_p (fuel : nat) (c : ebe_config) (k : nat) (out_nn : Z)
    (part_id start_elem until_turn : Z) (bes : list E) (at_turn : Z)
    (p : particle T) (success : Z) : P :=
  match fuel with
  | O => OutOfFuel
  | S fuel =>
    ebe_pass_p c k out_nn part_id start_elem until_turn bes start_elem at_turn p success
      (fun p success cont at_turn =>
       if cont
       then ebe_loop_p fuel c k out_nn part_id start_elem until_turn bes at_turn p success
       else Ret (p, success))
  end.

(* track.h 673-779, cf. Track.track_ebe *)
Definition track_ebe_p (c : ebe_config) (bes : list E) (until_turn : Z) (p : particle T) : P :=
  match e_out c with
  | Some k =>
    Act (fun o => match out_num o k with
    | None => None
    | Some out_nn => Some (o,
      let part_id := p_particle_id p in
      let start_elem := p_at_element_id p in
      let at_turn := p_at_turn p in
      if match bes with [] => false | _ => true end &&
         (at_turn <? until_turn) && (0 <=? at_turn) &&
         (0 <=? start_elem) && (0 <=? part_id) then
        ebe_loop_p (Z.to_nat (until_turn - at_turn)) c k out_nn part_id start_elem
          until_turn bes at_turn p 0
      else Ret (p, 0))
    end)
  | None => track_until_turn_p bes until_turn p
  end.

(* track.h 799-813, cf. Track.line_pass *)
Fixpoint line_pass_p (bes : list E) (p : particle T) (success : Z)
    (k : particle T -> Z -> P) : P :=
  match bes with
  | [] => k p success
  | be :: rest =>
    Act (fun o => match disp be p o with
      | None => None
      | Some (p, o, success) => Some (o,
          if (success =? 0) && is_not_lost p
          then line_pass_p rest (incr_at_element p) success k
          else k p success)
      end)
  end.

(* track.h 782-824, cf. Track.track_line *)
Definition track_line_p (bes : list E) (finish_turn : bool) (p : particle T) : P :=
  let fin p success :=
    if finish_turn && (success =? 0) && is_not_lost p then
      Ret (set_s zero (incr_at_turn (set_at_element_id 0 p)), success)
    else Ret (p, success) in
  if is_not_lost p then line_pass_p bes p 0 fin else fin p 0.

End Programs.

Section Instance.
Context {T : Type} (N : NumOps T) (c : config T).
Definition until_turn_p (lattice : list (element T)) (turn : Z) :=
  track_until_turn_p (nzero N) (dispatch N c) lattice turn.
Definition elem_by_elem_p (cfg : ebe_config) (lattice : list (element T)) (turn : Z) :=
  track_ebe_p (nzero N) (dispatch N c) (@outs_num T) (@store_out T) cfg lattice turn.
Definition line_p (elems : list (element T)) (finish_turn : bool) :=
  track_line_p (nzero N) (dispatch N c) elems finish_turn.
End Instance.
