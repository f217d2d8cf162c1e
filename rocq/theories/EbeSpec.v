(* Specification for the element-by-element output layout: when is a configuration
   valid, and which records does it hold.  Independent of how indices are computed. *)
From Coq Require Import ZArith Bool.
From Verif Require Import EbeConfig.
Local Open Scope Z_scope.

(* A configuration produced by a successful ElemByElemConfig_init_detailed with the
   (only) turn/element/particle order, possibly with an output set assigned. *)
Definition ebe_made (c : ebe_config) : Prop :=
  exists min_pid max_pid min_eid max_eid min_turn max_turn rolling k c0,
    ebe_init_detailed ORDER_TURN_ELEM_PARTICLES min_pid max_pid min_eid max_eid
      min_turn max_turn rolling = Some c0 /\ c = ebe_set_out c0 k.

(* the (particle id, element id, turn) triple is one the configuration stores *)
Definition ebe_covers (c : ebe_config) (pid eid turn : Z) : Prop :=
  e_min_pid c <= pid <= e_max_pid c /\
  e_min_eid c <= eid <= e_max_eid c /\
  e_min_turn c <= turn <= e_max_turn c.

(* number of particle slots needed: one per covered triple *)
Definition ebe_capacity (c : ebe_config) : Z :=
  (e_max_pid c - e_min_pid c + 1) * (e_max_eid c - e_min_eid c + 1) *
  (e_max_turn c - e_min_turn c + 1).

(* number of turns kept *)
Definition ebe_turns (c : ebe_config) : Z := e_max_turn c - e_min_turn c + 1.
