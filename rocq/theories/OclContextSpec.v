(* Specification vocabulary for C75: contexts a program can reach, calls which concern a kernel or one of
   its arguments, and the times a kernel has taken. *)
From Coq Require Import Ascii String ZArith Bool List.
From Verif Require Import Num NodeId OclContext.
Import ListNotations.
Local Open Scope Z_scope.

(* the numbers of parameters OpenCL reports are not negative *)
Definition env_ok (e : env) : Prop := forall s n, 0 <= i_nargs (e_info e s n).
(* indices of nodes are unsigned *)
Definition op_ok (o : op) : Prop :=
  match o with OSelectIndex _ i | OSelectOther i => 0 <= i | _ => True end.
Definition hist_ok (h : list (env * op)) : Prop := Forall (fun x => env_ok (fst x) /\ op_ok (snd x)) h.

(* a context after any calls, starting with a new one *)
Definition reachable {T} (N : NumOps T) (c : ctx T) : Prop :=
  exists e nodes dir opts h,
    0 <= nodes /\ hist_ok h /\ steps T N h (new_ctx T e nodes dir opts) = Some c.

(* calls which drop all programs or (when no node is selected) may do so *)
Definition drops (o : op) : bool := match o with OClear | ODebug _ | OReinit => true | _ => false end.
Definition is_clear (o : op) : bool := match o with OClear => true | _ => false end.

(* calls which set or reset parameter [i] of kernel [id] *)
Definition sets_arg (id i : Z) (o : op) : bool :=
  match o with
  | OAssign id' i' _ | OResetArg id' i' => (id' =? id) && (i' =? i)
  | OResetArgs id' => id' =? id
  | _ => false
  end.

(* the seconds kernel [id] took in every profiled run since it was last reset, oldest first *)
Definition seconds {T} (N : NumOps T) (s e : Z) : T :=
  if s <=? e then nmul N (ndec N 1 (-9)) (nofZ N (e - s)) else nzero N.
Fixpoint taken {T} (N : NumOps T) (id : Z) (h : list (env * op)) (acc : list T) : list T :=
  match h with
  | [] => acc
  | (_, o) :: h =>
      taken N id h
        match o with
        | ORun (mkOut _ (Some (s, e))) id' _ _ => if id' =? id then acc ++ [seconds N s e] else acc
        | OResetExec id' => if id' =? id then [] else acc
        | _ => acc
        end
  end.
(* times of the OpenCL profiler are 64 bit *)
Definition ns_ok (o : op) : Prop :=
  match o with ORun (mkOut _ (Some (s, e))) _ _ _ => 0 <= s < 2 ^ 64 /\ 0 <= e < 2 ^ 64 | _ => True end.

(* the compiler accepts a program for a node *)
Definition builds_on (e : env) (node : Z) (p : program) : bool :=
  negb (is_empty (p_options p)) &&
  match e_build e node (p_source p) (p_options p) with (BuildSuccess, _, _) => true | _ => false end.
Definition can_build {T} (e : env) (id : Z) (c : ctx T) : bool :=
  match nthz (c_progs T c) id with Some p => builds_on e (c_sel T c) p | None => false end.
(* a kernel of this name is enabled for this program *)
Definition enabled {T} (name : chars) (id : Z) (c : ctx T) : Prop :=
  exists j, ker_name T j c = Some name /\ ker_prog T j c = id.
