(* What a prepared output should be, independent of how it is prepared. *)
From Coq Require Import ZArith List Bool.
From Verif Require Import Num Particle Elements EbeConfig MonitorSpec.
Import ListNotations.
Local Open Scope Z_scope.

(* a monitor takes part in tracking from first_turn on *)
Definition takes_part (first_turn : Z) (m : monitor) : Prop :=
  first_turn <= m_start m /\ 0 < m_num_stores m.

(* m2 is m, storing the particles min_pid .. max_pid, except for where it stores them *)
Definition same_settings (min_pid max_pid : Z) (m m2 : monitor) : Prop :=
  m_num_stores m2 = m_num_stores m /\ m_start m2 = m_start m /\ m_skip m2 = m_skip m /\
  m_rolling m2 = m_rolling m /\ m_turn_ordered m2 = m_turn_ordered m /\
  m_min_id m2 = min_pid /\ m_max_id m2 = max_pid.

Section Spec.
Context {T : Type}.

(* monitor j of the line has output set k *)
Definition stores_in (line : list (element T)) (j k : nat) : Prop :=
  exists m, nth_error line j = Some (BMonitor m) /\ m_out m = Some k.

(* every set a monitor refers to exists, has room for all it stores, and belongs to that
   monitor only *)
Definition well_assigned (line : list (element T)) (outs : outsets T) : Prop :=
  forall j m k, nth_error line j = Some (BMonitor m) -> m_out m = Some k ->
    (exists l, nth_error outs k = Some l /\ mon_slots m = Z.of_nat (length l)) /\
    (forall j', stores_in line j' k -> j' = j).

End Spec.
