(* What beam monitors should store, independent of how positions are computed. *)
From Coq Require Import ZArith List Bool.
From Verif Require Import Elements.
Local Open Scope Z_scope.

(* a monitor that has been set up: it stores something, and has a range of particle ids *)
Definition mon_ready (m : monitor) : Prop :=
  0 < m_num_stores m /\ 0 < m_skip m /\ m_min_id m <= m_max_id m.

(* turn t is sample number i of the monitor: start, start + skip, start + 2 skip, ... *)
Definition sample (m : monitor) (t i : Z) : Prop := 0 <= i /\ t = m_start m + i * m_skip m.

(* number of particles the monitor keeps per sample, and positions it needs *)
Definition mon_particles (m : monitor) : Z := m_max_id m - m_min_id m + 1.
Definition mon_slots (m : monitor) : Z := mon_particles m * m_num_stores m.

Definition mon_accepts (m : monitor) (pid : Z) : Prop := m_min_id m <= pid <= m_max_id m.

(* sample i is stored: always by a rolling monitor, else the first num_stores ones *)
Definition mon_keeps (m : monitor) (i : Z) : Prop := m_rolling m = true \/ i < m_num_stores m.

(* two samples go to the same place: they are num_stores apart (or a multiple of it) *)
Definition same_store (m : monitor) (i j : Z) : Prop := exists k, i - j = k * m_num_stores m.

(* after the turns 0 .. n-1 have been tracked, sample i (of a turn below n) has been stored
   and not been overwritten *)
Definition still_stored (m : monitor) (n i : Z) : Prop :=
  mon_keeps m i /\
  forall j, sample m (m_start m + j * m_skip m) j -> m_start m + j * m_skip m < n -> i < j ->
    mon_keeps m j -> ~ same_store m i j.
