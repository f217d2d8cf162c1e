(* Vocabulary of the theorems about the particle sets of a job. *)
From Coq Require Import ZArith List Bool Sorted.
From Verif Require Import Num Particle Elements EbeConfig Track ParticleSet ParticleIds Output Kernels ThreadsSpec JobTrack.
Import ListNotations.
Local Open Scope Z_scope.

Set Implicit Arguments.

Section Spec.
Context {T : Type}.

(* object i of the buffer is a particle set with the particles ps *)
Definition holds (objs : list (pobj T)) (i : Z) (ps : list (particle T)) : Prop :=
  aget objs i = Some (Part (pset_of ps)).
(* the particle sets of the buffer have attribute arrays of their length *)
Definition proper (objs : list (pobj T)) : Prop := forall i p, aget objs i = Some (Part p) -> pset_wf p.
(* object i is asked for, and is a particle set with particles *)
Definition chosen (idx : list Z) (objs : list (pobj T)) (i : Z) : Prop :=
  In i idx /\ exists ps, ps <> [] /\ holds objs i ps.

(* number of particles in the objects of a list *)
Definition particles_in (objs : list (pobj T)) : Z :=
  fold_right Z.add 0 (map (fun ob => match ob with Part p => ps_num p | Other => 0 end) objs).

(* the particles of the sets, one set after the other *)
Inductive members (objs : list (pobj T)) : list Z -> list (particle T) -> Prop :=
| M_nil : members objs [] []
| M_cons : forall i ps rest qs, holds objs i ps -> ps <> [] -> members objs rest qs ->
    members objs (i :: rest) (ps ++ qs).

(* the particle p' is what tracking p alone, with outputs o, gives, with status s *)
Definition tracked (N : NumOps T) (c : config T) (m : mode T) (o : outsets T) (p p' : particle T) (s : Z) : Prop :=
  exists o', alone N c m p o = Ok (p', o', s).

(* what tracking by a job does to the particles buffer: the sets of the job are tracked
   once, all other objects stay; the status says whether all particles succeeded *)
Definition tracks_exactly (N : NumOps T) (c : config T) (m : mode T) (o : outsets T)
    (sets : Z -> Prop) (objs objs' : list (pobj T)) (st : Z) : Prop :=
  length objs' = length objs /\
  (forall i, ~ sets i -> aget objs' i = aget objs i) /\
  (forall i ps, sets i -> holds objs i ps -> exists ps', holds objs' i ps' /\ length ps' = length ps /\
     forall k p, nth_error ps k = Some p -> exists p' s, nth_error ps' k = Some p' /\
       tracked N c m o p p' s /\ (st = SUCCESS -> s = SUCCESS)) /\
  ((forall i ps p p' s, sets i -> holds objs i ps -> In p ps -> tracked N c m o p p' s -> s = SUCCESS) ->
   st = SUCCESS).

(* the way of tracking that a request stands for, if the job is prepared for it *)
Definition asks (j : tjob T) (r : request) (m : mode T) : Prop :=
  match r with
  | TrackUntil turn => m = UntilTurn (j_line (snd j)) turn
  | TrackElemByElem turn => j_ebe_on (snd j) = true /\
      exists cfg, j_ebe (snd j) = Some cfg /\ m = ElemByElem cfg (j_line (snd j)) turn
  | TrackLine b e fin => 0 <= b <= e /\ e <= Z.of_nat (length (j_line (snd j))) /\
      m = Line (firstn (Z.to_nat (e - b)) (skipn (Z.to_nat b) (j_line (snd j)))) fin
  end.

(* a sequence of requests to a job, with the particles buffer and the outputs before and
   after *)
Inductive session (N : NumOps T) (c : config T) (j : tjob T)
  : list request -> list (pobj T) -> outsets T -> list (pobj T) -> outsets T -> Prop :=
| S_none : forall objs o, session N c j [] objs o objs o
| S_next : forall r rs objs o objs1 o1 st objs2 o2,
    cpu_run N c j r objs o = Ok (objs1, o1, st) -> session N c j rs objs1 o1 objs2 o2 ->
    session N c j (r :: rs) objs o objs2 o2.
End Spec.
