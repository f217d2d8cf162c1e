(* Element-by-element output configuration:
   sixtracklib/common/output/elem_by_elem_config.h.
   Simplification: particle_index_t / particle_num_elements_t (int64) are
   unbounded integers Z; the output address is the index of an output particle
   set (see Elements.outsets). *)
From Coq Require Import ZArith Bool.
Local Open Scope Z_scope.

(* elem_by_elem_config.h 33-35 *)
Definition ORDER_INVALID : Z := -1.
Definition ORDER_TURN_ELEM_PARTICLES : Z := 0.
Definition ORDER_DEFAULT : Z := 0.

(* elem_by_elem_config.h 45-62: struct ElemByElemConfig *)
Record ebe_config := mkEbe {
  e_order : Z;
  e_np : Z; e_ne : Z; e_nt : Z;      (* num_{particles,elements,turns}_to_store *)
  e_min_pid : Z; e_max_pid : Z;
  e_min_eid : Z; e_max_eid : Z;
  e_min_turn : Z; e_max_turn : Z;
  e_rolling : bool;
  e_out : option nat }.

(* elem_by_elem_config.h 1111-1152: preset, clear *)
Definition ebe_preset : ebe_config :=
  mkEbe ORDER_INVALID 0 0 0 (-1) (-1) (-1) (-1) (-1) (-1) true None.

(* elem_by_elem_config.h 1050-1107: init_detailed; None = status failure,
   configuration untouched *)
Definition ebe_init_detailed (order min_pid max_pid min_eid max_eid min_turn max_turn : Z)
    (rolling : bool) : option ebe_config :=
  if negb (order =? ORDER_INVALID) &&
     (0 <=? min_pid) && (min_pid <=? max_pid) &&
     (0 <=? min_eid) && (min_eid <=? max_eid) &&
     (0 <=? min_turn) && (min_turn <=? max_turn) then
    Some (mkEbe order (max_pid - min_pid + 1) (max_eid - min_eid + 1)
            (max_turn - min_turn + 1) min_pid max_pid min_eid max_eid
            min_turn max_turn rolling None)
  else None.

(* elem_by_elem_config.h 1175-1190: set_output_store_address *)
Definition ebe_set_out (c : ebe_config) (k : option nat) : ebe_config :=
  mkEbe (e_order c) (e_np c) (e_ne c) (e_nt c) (e_min_pid c) (e_max_pid c)
        (e_min_eid c) (e_max_eid c) (e_min_turn c) (e_max_turn c) (e_rolling c) k.

(* elem_by_elem_config.h 546-555: get_out_store_num_particles *)
Definition ebe_out_store_num (c : ebe_config) : Z := e_np c * e_ne c * e_nt c.

(* elem_by_elem_config.h 667-763: get_particles_store_index_details.
   C's % truncates: Z.rem. *)
Definition ebe_store_index (c : ebe_config) (particle_id at_element at_turn : Z) : Z :=
  if (e_min_pid c <=? particle_id) && (particle_id <=? e_max_pid c) &&
     (e_min_eid c <=? at_element) && (at_element <=? e_max_eid c) &&
     (e_min_turn c <=? at_turn) &&
     ((at_turn <=? e_max_turn c) || e_rolling c) then
    let particle_id_offset := particle_id - e_min_pid c in
    let start_elem_id := at_element - e_min_eid c in
    let turn_offset := at_turn - e_min_turn c in
    let '(idx, cap) :=
      if e_order c =? ORDER_TURN_ELEM_PARTICLES then
        (turn_offset * e_np c * e_ne c + start_elem_id * e_np c + particle_id_offset,
         e_np c * e_ne c * e_nt c)
      else (-1, 0) in
    if (cap <=? idx) && (0 <? cap) && e_rolling c then Z.rem idx cap else idx
  else -1.

(* elem_by_elem_config.h 766-785: get_particles_store_index, uses |particle_id| *)
Definition ebe_store_index_of (c : ebe_config) (particle_id at_element at_turn : Z) : Z :=
  ebe_store_index c (if 0 <=? particle_id then particle_id else - particle_id)
    at_element at_turn.

(* elem_by_elem_config.h 788-872 *)
Definition ebe_pid_of_index (c : ebe_config) (idx : Z) : Z :=
  if (0 <=? idx) && (idx <? ebe_out_store_num c) then
    let pid := if e_order c =? ORDER_TURN_ELEM_PARTICLES
               then Z.rem (Z.rem idx (e_np c * e_ne c)) (e_np c) else -1 in
    if 0 <=? pid then pid + e_min_pid c else pid
  else -1.

(* elem_by_elem_config.h 875-959 *)
Definition ebe_eid_of_index (c : ebe_config) (idx : Z) : Z :=
  if (0 <=? idx) && (idx <? ebe_out_store_num c) then
    let eid := if e_order c =? ORDER_TURN_ELEM_PARTICLES
               then Z.quot (Z.rem idx (e_np c * e_ne c)) (e_np c) else -1 in
    if 0 <=? eid then eid + e_min_eid c else eid
  else -1.

(* elem_by_elem_config.h 962-1046 *)
Definition ebe_turn_of_index (c : ebe_config) (idx : Z) : Z :=
  if (0 <=? idx) && (idx <? ebe_out_store_num c) then
    let t := if e_order c =? ORDER_TURN_ELEM_PARTICLES
             then Z.quot idx (e_np c * e_ne c) else -1 in
    if 0 <=? t then t + e_min_turn c else t
  else -1.

(* elem_by_elem_config.h 1454-1490: get_stored_num_particles_detailed *)
Definition ebe_stored_num_detailed
    (min_pid max_pid min_eid max_eid min_turn max_turn : Z) : Z :=
  if (0 <=? min_pid) && (min_pid <=? max_pid) &&
     (0 <=? min_eid) && (min_eid <=? max_eid) &&
     (0 <=? min_turn) && (min_turn <=? max_turn) then
    (1 + max_pid - min_pid) * (1 + max_eid - min_eid) * (1 + max_turn - min_turn)
  else 0.
