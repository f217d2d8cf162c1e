(* Vocabulary of the theorems about schedules. *)
From Coq Require Import ZArith List Bool.
From Verif Require Import Num Particle Elements EbeConfig Track DispatchProofs Threads EbeSpec.
Import ListNotations.
Local Open Scope Z_scope.

Set Implicit Arguments.

Section Spec.
Context {T : Type}.

(* A write into the output memory: output set, position, record. *)
Definition write := (nat * nat * particle T)%type.
Definition slot (w : write) : nat * nat := fst w.
Definition write_to (o : outsets T) (w : write) : outsets T :=
  match w with (k, i, q) =>
    match nth_error o k with
    | Some l => upd o k (upd l i q)
    | None => o
    end
  end.
Definition apply_writes (ws : list write) (o : outsets T) : outsets T := fold_left write_to ws o.

(* record i of output set k *)
Definition record_at (o : outsets T) (k i : nat) : option (particle T) :=
  match nth_error o k with Some l => nth_error l i | None => None end.

(* all threads have finished *)
Definition finished {M A : Type} (pool : list (prog M A)) : Prop :=
  forall t, In t pool -> exists a, t = Ret a.
(* the results of the threads *)
Definition results {M A : Type} (pool : list (prog M A)) : list (option A) :=
  map (fun t => match t with Ret a => Some a | _ => None end) pool.
End Spec.
Arguments write : clear implicits.

(* The three ways of tracking a particle (track.h), as a thread and run alone. *)
Inductive mode (T : Type) :=
| UntilTurn (lattice : list (element T)) (turn : Z)
| ElemByElem (cfg : ebe_config) (lattice : list (element T)) (turn : Z)
| Line (elems : list (element T)) (finish_turn : bool).
Arguments UntilTurn {T}. Arguments ElemByElem {T}. Arguments Line {T}.

Section Modes.
Context {T : Type} (N : NumOps T) (c : config T).
Definition thread (m : mode T) : particle T -> prog (outsets T) (particle T * Z) :=
  match m with
  | UntilTurn lat turn => until_turn_p N c lat turn
  | ElemByElem cfg lat turn => elem_by_elem_p N c cfg lat turn
  | Line elems fin => line_p N c elems fin
  end.
Definition alone (m : mode T) : particle T -> outsets T -> res (particle T * outsets T * Z) :=
  match m with
  | UntilTurn lat turn => until_turn N c lat turn
  | ElemByElem cfg lat turn => elem_by_elem N c cfg lat turn
  | Line elems fin => line N c elems fin
  end.
Definition elements (m : mode T) : list (element T) :=
  match m with UntilTurn l _ => l | ElemByElem _ l _ => l | Line l _ => l end.
Definition ebe_output (m : mode T) : option nat :=
  match m with ElemByElem cfg _ _ => e_out cfg | _ => None end.

(* Every particle has its own records in the output: distinct particle ids; an
   element-by-element configuration made by the library; beam monitors ordered by turn
   whose id range contains all particles, with output sets that are not the
   element-by-element output; monitors sharing an output set have the same id range. *)
Definition own_records (m : mode T) (ps : list (particle T)) : Prop :=
  NoDup (map (@p_particle_id T) ps) /\
  (forall mon k, In (BMonitor mon) (elements m) -> m_out mon = Some k ->
     m_turn_ordered mon = true /\ ebe_output m <> Some k /\
     (forall p, In p ps -> m_min_id mon <= p_particle_id p <= m_max_id mon) /\
     (forall mon', In (BMonitor mon') (elements m) -> m_out mon' = Some k ->
        m_min_id mon' = m_min_id mon /\ m_max_id mon' = m_max_id mon)) /\
  match m with ElemByElem cfg _ _ => EbeSpec.ebe_made cfg | _ => True end.
End Modes.
