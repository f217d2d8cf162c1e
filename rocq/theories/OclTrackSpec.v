(* Specification vocabulary for C76: what is bound to the kernels of a context as seen by its user, and the
   kernels a device has to execute for the calls of a history. *)
From Coq Require Import Ascii String ZArith Bool List.
From Verif Require Import Num NodeId OclContext OclTrack.
Import ListNotations.
Local Open Scope Z_scope.

(* what the user has assigned last: arguments (buffers on the device), index of the element-by-element
   configuration, particle set and its number of particles *)
Record view : Set := mkView {
  v_parts : Z; v_elems : Z; v_out : Z; v_conf : Z; v_addr : Z; v_idx : Z; v_set : Z; v_num : Z }.

(* the arguments the kernels of kernels/*.cl have to get: particles, set, elements, ... , slot size *)
Definition args_of (v : view) (set : Z) (m : cmd) : list bound :=
  match m with
  | Until u => [BArg (v_parts v); BValue set; BArg (v_elems v); BValue u; BValue 8]
  | Line b e f =>
      [BArg (v_parts v); BValue set; BArg (v_elems v); BValue b; BValue e; BValue (if f then 1 else 0); BValue 8]
  | Elem u => [BArg (v_parts v); BValue set; BArg (v_elems v); BArg (v_conf v); BValue (v_idx v); BValue u; BValue 8]
  | AsgMon u o => [BArg (v_elems v); BArg (v_out v); BValue u; BValue o; BValue 8]
  | ClrMon => [BArg (v_elems v); BValue 8]
  | AsgElem o => [BArg (v_conf v); BValue (v_idx v); BArg (v_out v); BValue o; BValue 8]
  end.
Definition fetch_args (v : view) : list bound := [BArg (v_parts v); BArg (v_addr v); BValue 8].
(* number of arguments without the status flags of debug mode *)
Definition arity (k : role) : nat :=
  match k with KUntil => 5 | KLine => 7 | KElem => 7 | KAsgMon => 5 | KClrMon => 2 | KAsgElem => 5 | KFetch => 3 end.

Definition seen (l : launch) : role * list bound * Z := (l_role l, firstn (arity (l_role l)) (l_args l), l_items l).

(* a run happens if OpenCL accepts it and, in debug mode, the status flags could be cleared before it *)
Definition happens (dbg : bool) (x : tenv) : bool := r_ok (x_out x) && (negb dbg || x_prep x).
Definition status (dbg : bool) (x : tenv) : Z := if happens dbg x then (if dbg then x_eval x else 0) else -1.
Definition if_happens {A} (dbg : bool) (x : tenv) (l : A) : list A := if happens dbg x then [l] else [].

(* the kernels to be executed for a call, and the status to be returned. An element-by-element run for a
   given set is made with the number of particles of the selected set, see C76_elem_items_refuted *)
Definition expected (dbg : bool) (v : view) (o : top) : list (role * list bound * Z) * Z :=
  match o with
  | TTrack x m => (if_happens dbg x (role_of m, args_of v (v_set v) m, if tracks m then v_num v else 1), status dbg x)
  | TTrackSet x m p n =>
      (if_happens dbg x (role_of m, args_of v p m, match m with Elem _ => v_num v | _ => n end), status dbg x)
  | TJob m sets =>
      (flat_map (fun s => let '(p, n, x) := s in
         if_happens dbg x (role_of m, args_of v p m, match m with Elem _ => v_num v | _ => n end)) sets,
       fold_right (fun s r => let '(_, _, x) := s in Z.lor (status dbg x) r) 0 sets)
  | TFetch x => (if_happens false x (KFetch, fetch_args v, 1), status false x)
  | _ => ([], 0)
  end.
Definition next (v : view) (o : top) : view :=
  match o with
  | TParticles a => mkView a (v_elems v) (v_out v) (v_conf v) (v_addr v) (v_idx v) (v_set v) (v_num v)
  | TElements a => mkView (v_parts v) a (v_out v) (v_conf v) (v_addr v) (v_idx v) (v_set v) (v_num v)
  | TOutput a => mkView (v_parts v) (v_elems v) a (v_conf v) (v_addr v) (v_idx v) (v_set v) (v_num v)
  | TConfig a => mkView (v_parts v) (v_elems v) (v_out v) a (v_addr v) (v_idx v) (v_set v) (v_num v)
  | TAddr a => mkView (v_parts v) (v_elems v) (v_out v) (v_conf v) a (v_idx v) (v_set v) (v_num v)
  | TConfigIndex i => mkView (v_parts v) (v_elems v) (v_out v) (v_conf v) (v_addr v) i (v_set v) (v_num v)
  | TSet p n => mkView (v_parts v) (v_elems v) (v_out v) (v_conf v) (v_addr v) (v_idx v) p n
  | _ => v
  end.
(* calls for which this holds: tracking of given sets is only for tracking commands, and the selected set of
   a context used by a job is the first set of the job and only this one (see C76_selected_not_first_refuted) *)
Definition call_ok (v : view) (o : top) : Prop :=
  match o with
  | TTrackSet _ m _ _ => tracks m = true
  | TJob m sets =>
      tracks m = true /\
      match sets with
      | (p, n, _) :: rest => p = v_set v /\ n = v_num v /\ Forall (fun s => fst (fst s) <> v_set v) rest
      | [] => False
      end
  | _ => True
  end.
Fixpoint calls_ok (v : view) (h : list top) : Prop :=
  match h with [] => True | o :: h => call_ok v o /\ calls_ok (next v o) h end.
Fixpoint all_expected (dbg : bool) (v : view) (h : list top) : list (role * list bound * Z) * list Z :=
  match h with
  | [] => ([], [])
  | o :: h => let '(l, ss) := all_expected dbg (next v o) h in
              (fst (expected dbg v o) ++ l, snd (expected dbg v o) :: ss)
  end.
Definition final (v : view) (h : list top) : view := fold_left next h v.

(* every role has its own enabled kernel with enough parameters, and no kernel was run with an explicit work
   group size *)
Record Kernels {T} (t : tctx T) : Prop := mkKernels {
  kn_node : has_node T (t_ctx T t) = true;
  kn_count : num_kers T (t_ctx T t) <= ILLEGAL;
  kn_ids : forall k, exists r, nthz (c_kers T (t_ctx T t)) (t_id T t k) = Some r /\
    Z.of_nat (arity k) <= k_nargs T r /\ zlen (k_bound T r) = k_nargs T r /\ k_last_wgs T r = 0;
  kn_inj : forall k k', t_id T t k = t_id T t k' -> k = k' }.

(* the arguments which stay bound between the calls *)
Definition fixed (v : view) (k : role) : list (Z * bound) :=
  match k with
  | KUntil => [(0, BArg (v_parts v)); (1, BValue (v_set v)); (2, BArg (v_elems v)); (4, BValue 8)]
  | KLine => [(0, BArg (v_parts v)); (1, BValue (v_set v)); (2, BArg (v_elems v)); (6, BValue 8)]
  | KElem => [(0, BArg (v_parts v)); (1, BValue (v_set v)); (2, BArg (v_elems v)); (3, BArg (v_conf v));
              (4, BValue (v_idx v)); (6, BValue 8)]
  | KAsgMon => [(0, BArg (v_elems v)); (1, BArg (v_out v)); (4, BValue 8)]
  | KClrMon => [(0, BArg (v_elems v)); (1, BValue 8)]
  | KAsgElem => [(0, BArg (v_conf v)); (1, BValue (v_idx v)); (2, BArg (v_out v)); (4, BValue 8)]
  | KFetch => [(0, BArg (v_parts v)); (1, BArg (v_addr v)); (2, BValue 8)]
  end.
Record Bound {T} (t : tctx T) (v : view) : Prop := mkBound {
  bd_args : forall k i b, In (i, b) (fixed v k) -> ker_bound T (t_id T t k) i (t_ctx T t) = Some b;
  bd_set : t_pset T t = v_set v; bd_num : t_num T t = v_num v; bd_idx : t_cfg T t = v_idx v }.
