(* Theorems for C24, C25: where element-by-element records are stored. *)
From Coq Require Import ZArith List Bool Lia.
From Verif Require Import EbeConfig EbeSpec EbeProofs EbeHist.
Import ListNotations.
Local Open Scope Z_scope.

(* C24: distinct triples have distinct indices, inside the output capacity. *)
Theorem C24_injective : forall c p1 e1 t1 p2 e2 t2, ebe_made c ->
  ebe_covers c p1 e1 t1 -> ebe_covers c p2 e2 t2 ->
  ebe_store_index c p1 e1 t1 = ebe_store_index c p2 e2 t2 -> p1 = p2 /\ e1 = e2 /\ t1 = t2.
Proof. exact index_injective. Qed.
Print Assumptions C24_injective.

Theorem C24_in_capacity : forall c pid eid turn, ebe_made c -> ebe_covers c pid eid turn ->
  0 <= ebe_store_index c pid eid turn < ebe_capacity c.
Proof. exact (fun c p e t H H0 => proj2 (index_covered c p e t H H0)). Qed.
Print Assumptions C24_in_capacity.

(* Every index below the capacity is used, and the recovered triple is the one it
   was computed from. *)
Theorem C24_every_index_used : forall c i, ebe_made c -> 0 <= i < ebe_capacity c ->
  ebe_covers c (ebe_pid_of_index c i) (ebe_eid_of_index c i) (ebe_turn_of_index c i) /\
  ebe_store_index c (ebe_pid_of_index c i) (ebe_eid_of_index c i) (ebe_turn_of_index c i) = i.
Proof. exact of_index. Qed.
Print Assumptions C24_every_index_used.

Theorem C24_recovered : forall c pid eid turn, ebe_made c -> ebe_covers c pid eid turn ->
  ebe_pid_of_index c (ebe_store_index c pid eid turn) = pid /\
  ebe_eid_of_index c (ebe_store_index c pid eid turn) = eid /\
  ebe_turn_of_index c (ebe_store_index c pid eid turn) = turn.
Proof. exact inverse. Qed.
Print Assumptions C24_recovered.

(* The capacity the configuration reports, and the size computed for the output
   buffer, is the number of covered triples. *)
Theorem C24_capacity : forall c, ebe_made c ->
  ebe_out_store_num c = ebe_capacity c /\
  ebe_stored_num_detailed (e_min_pid c) (e_max_pid c) (e_min_eid c) (e_max_eid c)
    (e_min_turn c) (e_max_turn c) = ebe_capacity c.
Proof. exact capacity_reported. Qed.
Print Assumptions C24_capacity.

(* Triples outside a non-rolling configuration, and indices outside the capacity,
   are answered with -1. *)
Theorem C24_rejected : forall c pid eid turn, ebe_made c -> e_rolling c = false ->
  ~ ebe_covers c pid eid turn -> ebe_store_index c pid eid turn = -1.
Proof. exact rejected. Qed.
Print Assumptions C24_rejected.

Theorem C24_index_rejected : forall c i, ebe_made c -> ~ (0 <= i < ebe_capacity c) ->
  ebe_pid_of_index c i = -1 /\ ebe_eid_of_index c i = -1 /\ ebe_turn_of_index c i = -1.
Proof. exact out_of_capacity. Qed.
Print Assumptions C24_index_rejected.

(* a configuration for particles 2..5, elements 1..3, turns 10..11 *)
Definition conf_case (rolling : bool) : ebe_config :=
  mkEbe 0 4 3 2 2 5 1 3 10 11 rolling (Some 0%nat).

Example C24_case : forall r, ebe_made (conf_case r) /\ ebe_covers (conf_case r) 4 2 11 /\
  ebe_store_index (conf_case r) 4 2 11 = 18 /\ ebe_capacity (conf_case r) = 24.
Proof.
  intros r. split; [|split; [|split]].
  - exists 2, 5, 1, 3, 10, 11, r, (Some 0%nat). eexists. split; reflexivity.
  - unfold ebe_covers, conf_case; cbn. lia.
  - destruct r; vm_compute; reflexivity.
  - vm_compute; reflexivity.
Qed.

(* C25: with rolling output every triple in the particle and element range, at any
   turn from the first on, is stored inside the capacity ... *)
Theorem C25_in_capacity : forall c pid eid turn, ebe_made c -> e_rolling c = true ->
  e_min_pid c <= pid <= e_max_pid c -> e_min_eid c <= eid <= e_max_eid c ->
  e_min_turn c <= turn -> 0 <= ebe_store_index c pid eid turn < ebe_capacity c.
Proof. exact rolling_bounds. Qed.
Print Assumptions C25_in_capacity.

(* ... two triples share a slot iff they differ only by a multiple of the number of
   stored turns ... *)
Theorem C25_share : forall c p1 e1 t1 p2 e2 t2, ebe_made c -> e_rolling c = true ->
  e_min_pid c <= p1 <= e_max_pid c -> e_min_eid c <= e1 <= e_max_eid c -> e_min_turn c <= t1 ->
  e_min_pid c <= p2 <= e_max_pid c -> e_min_eid c <= e2 <= e_max_eid c -> e_min_turn c <= t2 ->
  (ebe_store_index c p1 e1 t1 = ebe_store_index c p2 e2 t2 <->
   p1 = p2 /\ e1 = e2 /\ exists k, t1 - t2 = k * ebe_turns c).
Proof. exact rolling_share. Qed.
Print Assumptions C25_share.

(* ... so after any history of stores (any records, particles and elements in any
   order), a record is still there as long as what was stored later for the same
   particle and element lies less than the number of stored turns ahead. *)
Theorem C25_keeps_latest : forall A c (out : list A) h1 pid eid turn r h2,
  ebe_made c -> e_rolling c = true -> Z.of_nat (length out) = ebe_capacity c ->
  (forall ev, In ev (h1 ++ (pid, eid, turn, r) :: h2) -> accepted c ev) ->
  (forall turn' r', In (pid, eid, turn', r') h2 -> turn < turn' < turn + ebe_turns c) ->
  nth_error (store_all c out (h1 ++ (pid, eid, turn, r) :: h2))
    (Z.to_nat (ebe_store_index c pid eid turn)) = Some r.
Proof. exact keeps_latest. Qed.
Print Assumptions C25_keeps_latest.

(* turn 12 overwrites turn 10; turns 11 and 12 are kept *)
Example C25_case :
  let h := [(4, 2, 10, 100); (4, 2, 11, 101); (4, 2, 12, 102)] in
  (forall ev, In ev h -> accepted (conf_case true) ev) /\
  nth_error (store_all (conf_case true) (repeat 0 24) h)
    (Z.to_nat (ebe_store_index (conf_case true) 4 2 11)) = Some 101 /\
  nth_error (store_all (conf_case true) (repeat 0 24) h)
    (Z.to_nat (ebe_store_index (conf_case true) 4 2 12)) = Some 102 /\
  nth_error (store_all (conf_case true) (repeat 0 24) h)
    (Z.to_nat (ebe_store_index (conf_case true) 4 2 10)) = Some 102.
Proof.
  cbv zeta. split; [|vm_compute; auto].
  intros ev H. cbn in H. repeat (destruct H as [<-|H]; [cbn; lia|]). contradiction.
Qed.
